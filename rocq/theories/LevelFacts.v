(** One crawl in closed form. *)
From Verif Require Import Base BaseFacts Field Util UtilFacts Env Prg PrgFacts PrgSpecFacts2 Vidpf SpecVidpf SpecTree VidpfFacts VidpfEvalFacts VidpfTreeFacts VidpfTreeFacts3
  Merkle Collect Server Driver SpecCollect SpecServer SpecCheck SpecLevel CollectFacts CollectInv ServerFacts DriverFacts RefuteFacts.

Definition state_at (E : env) (k : vidpf_key) (len : nat) (p : list bool) : eval_state :=
  match eval_loop E k (eval_init k) [] p len with Ret (st, _, _) => st | Panic _ => eval_init k end.

Section Level.
Variable E : env.

Lemma evals_at k len p st w : evals E k len p st w -> state_at E k len p = st /\ word_at E k len p = match w with Some x => x | None => [of_Z 0] end.
Proof.
  intros H. split.
  - destruct (evals_eval_loop _ _ _ _ _ _ H) as [out Ho]. unfold state_at. rewrite Ho. reflexivity.
  - unfold word_at. destruct w as [w|]; [rewrite (evals_share_at _ _ _ _ _ _ H); reflexivity|].
    inversion H; subst. reflexivity.
Qed.
Lemma evals_proof_at k len p st w : evals E k len p st (Some w) -> proof_at E k len p = es_proof st.
Proof. intros H. unfold proof_at. rewrite (evals_share_at _ _ _ _ _ _ H). reflexivity. Qed.

(** every report has a key, and it can be evaluated along the path *)
Definition defined_at (len : nat) (reps : list (bool * report_share)) (p : list bool) : Prop :=
  forall h r, In (h, r) reps -> exists st w, unwrap_vidpf_key r = Ret (key_of r) /\ evals E (key_of r) len p st w.

Definition states_of len (reps : list (bool * report_share)) p := map (fun hr => state_at E (key_of (snd hr)) len p) reps.
Definition words_of len (reps : list (bool * report_share)) p := map (fun hr => word_at E (key_of (snd hr)) len p) reps.
Definition node_is len reps p (n : tree_node) : Prop := tn_path n = p /\ tn_states n = states_of len reps p /\ tn_values n = words_of len reps p.
Definition mknode len reps p : tree_node :=
  {| tn_path := p; tn_value := sum_honest (len + 1) (words_of len reps p) reps; tn_states := states_of len reps p; tn_values := words_of len reps p |}.
Lemma mknode_is len reps p : node_is len reps p (mknode len reps p).
Proof. repeat split. Qed.

Lemma unwrap_key r k : unwrap_vidpf_key r = Ret k -> k = key_of r.
Proof. destruct r; cbn; congruence. Qed.

Lemma node_ok_is len reps node : node_ok E len reps (length reps) node -> node_is len reps (tn_path node) node /\ defined_at len reps (tn_path node).
Proof.
  intros (Hs & Hv & H).
  assert (Hi : forall i h r, nth_error reps i = Some (h, r) -> exists st w, unwrap_vidpf_key r = Ret (key_of r) /\ evals E (key_of r) len (tn_path node) st w /\
    nth_error (tn_states node) i = Some st /\ nth_error (tn_values node) i = Some (match w with Some x => x | None => [of_N 0] end)).
  { intros i h r Hr. assert (i < length reps) by (apply nth_error_Some; congruence).
    destruct (nth_error (tn_states node) i) as [st|] eqn:Hst; [|apply nth_error_None in Hst; lia].
    destruct (nth_error (tn_values node) i) as [v|] eqn:Hvv; [|apply nth_error_None in Hvv; lia].
    destruct (H _ _ _ Hst Hvv) as (h' & r' & k & w & Hr' & Hk & He & ->). rewrite Hr in Hr'. injection Hr' as <- <-.
    pose proof (unwrap_key _ _ Hk). subst k. exists st, w. auto. }
  split; [split; [reflexivity|split]|].
  - apply nth_error_ext. intros i. unfold states_of. rewrite nth_error_map'. destruct (nth_error reps i) as [[h r]|] eqn:Hr.
    + destruct (Hi _ _ _ Hr) as (st & w & _ & He & -> & _). cbn. f_equal. symmetry. apply (evals_at _ _ _ _ _ He).
    + apply nth_error_None in Hr. cbn. apply nth_error_None. lia.
  - apply nth_error_ext. intros i. unfold words_of. rewrite nth_error_map'. destruct (nth_error reps i) as [[h r]|] eqn:Hr.
    + destruct (Hi _ _ _ Hr) as (st & w & _ & He & _ & ->). cbn [option_map snd]. f_equal. symmetry. change (of_N 0) with (of_Z 0). apply (evals_at _ _ _ _ _ He).
    + apply nth_error_None in Hr. cbn. apply nth_error_None. lia.
  - intros h r Hin. apply In_nth_error in Hin. destruct Hin as [i Hr]. destruct (Hi _ _ _ Hr) as (st & w & Hk & He & _). eauto.
Qed.

(** flags do not matter for the shape *)
Definition same_shares (a b : list (bool * report_share)) : Prop := map snd a = map snd b.
Lemma same_in a b h r : same_shares a b -> In (h, r) b -> exists h', In (h', r) a.
Proof.
  intros Hs Hin. apply (in_map snd) in Hin. rewrite <- Hs in Hin. apply in_map_iff in Hin. destruct Hin as ([h' r'] & Hr & Hin). cbn in Hr. subst. eauto.
Qed.
Lemma defined_same len a b p : same_shares a b -> defined_at len a p -> defined_at len b p.
Proof. intros Hs Hd h r Hin. destruct (same_in _ _ _ _ Hs Hin) as [h' Hin']. apply (Hd _ _ Hin'). Qed.
Lemma states_same len a b p : same_shares a b -> states_of len a p = states_of len b p.
Proof. intros Hs. unfold states_of. rewrite <- !(map_map snd (fun r => state_at E (key_of r) len p)), Hs. reflexivity. Qed.
Lemma words_same len a b p : same_shares a b -> words_of len a p = words_of len b p.
Proof. intros Hs. unfold words_of. rewrite <- !(map_map snd (fun r => word_at E (key_of r) len p)), Hs. reflexivity. Qed.
Lemma node_is_same len a b p n : same_shares a b -> node_is len a p n -> node_is len b p n.
Proof. intros Hs (H1 & H2 & H3). unfold node_is. rewrite <- (states_same _ _ _ _ Hs), <- (words_same _ _ _ _ Hs). auto. Qed.

Lemma make_tree_node_iff c p n d n' : node_is (c_len c) (c_reports c) p n -> defined_at (c_len c) (c_reports c) p ->
  make_tree_node E c n d = Ret n' <-> defined_at (c_len c) (c_reports c) (p ++ [d]) /\ n' = mknode (c_len c) (c_reports c) (p ++ [d]).
Proof.
  intros (Hp & Hs & _) Hd. subst p. split.
  - intros H. apply make_tree_node_inv in H. destruct H as (res & H & ->). apply mapMi_inv in H. destruct H as [Hl H].
    assert (Hi : forall i h r, nth_error (c_reports c) i = Some (h, r) -> exists st w, nth_error res i = Some (st, w) /\
       unwrap_vidpf_key r = Ret (key_of r) /\ evals E (key_of r) (c_len c) (tn_path n ++ [d]) st (Some w)).
    { intros i h r Hr. destruct (H _ _ Hr) as ([st w] & Hres & Hf). cbn [Nat.add snd] in Hf. bret Hf as k Hk. bret Hf as st0 Hst0.
      pose proof (unwrap_key _ _ Hk). subst k. apply index_ret in Hst0. rewrite Hs in Hst0. unfold states_of in Hst0. rewrite nth_error_map', Hr in Hst0. cbn in Hst0. injection Hst0 as <-.
      destruct (Hd h r (nth_error_In _ _ Hr)) as (st0 & w0 & _ & He). rewrite (proj1 (evals_at _ _ _ _ _ He)) in Hf.
      exists st, w. split; [exact Hres|]. split; [exact Hk|]. eapply ev_snoc; [exact He|exact Hf]. }
    assert (Hst : map fst res = states_of (c_len c) (c_reports c) (tn_path n ++ [d])).
    { apply nth_error_ext. intros i. unfold states_of. rewrite !nth_error_map'. destruct (nth_error (c_reports c) i) as [[h r]|] eqn:Hr.
      - destruct (Hi _ _ _ Hr) as (st & w & -> & _ & He). cbn. f_equal. symmetry. apply (evals_at _ _ _ _ _ He).
      - apply nth_error_None in Hr. rewrite (proj2 (nth_error_None _ _)) by lia. reflexivity. }
    assert (Hw : map snd res = words_of (c_len c) (c_reports c) (tn_path n ++ [d])).
    { apply nth_error_ext. intros i. unfold words_of. rewrite !nth_error_map'. destruct (nth_error (c_reports c) i) as [[h r]|] eqn:Hr.
      - destruct (Hi _ _ _ Hr) as (st & w & -> & _ & He). cbn [option_map snd]. f_equal. symmetry. apply (proj2 (evals_at _ _ _ _ _ He)).
      - apply nth_error_None in Hr. rewrite (proj2 (nth_error_None _ _)) by lia. reflexivity. }
    split; [|unfold mknode; rewrite Hst, Hw; reflexivity].
    intros h r Hin. apply In_nth_error in Hin. destruct Hin as [i Hr]. destruct (Hi _ _ _ Hr) as (st & w & _ & Hk & He). eauto.
  - intros [Hd' ->]. unfold make_tree_node. rewrite <- bits_snoc.
    rewrite (mapMi_intro _ _ _ (combine (states_of (c_len c) (c_reports c) (tn_path n ++ [d])) (words_of (c_len c) (c_reports c) (tn_path n ++ [d])))).
    + cbn [bind]. unfold mknode. 
      assert (Hlen : length (states_of (c_len c) (c_reports c) (tn_path n ++ [d])) = length (words_of (c_len c) (c_reports c) (tn_path n ++ [d]))) by (unfold states_of, words_of; rewrite !map_length; reflexivity).
      assert (Hf : forall {A B} (a : list A) (b : list B), length a = length b -> map fst (combine a b) = a /\ map snd (combine a b) = b).
      { clear. induction a as [|x a IH]; intros [|y b] H; cbn in *; try discriminate; [auto|]. destruct (IH b ltac:(lia)) as [-> ->]. auto. }
      destruct (Hf _ _ _ _ Hlen) as [-> ->]. reflexivity.
    + rewrite combine_length. unfold states_of, words_of. rewrite !map_length. lia.
    + intros j [h r] [st w] Hr Hb. rewrite nth_error_combine in Hb. unfold states_of, words_of in Hb. rewrite !nth_error_map', Hr in Hb. cbn [option_map snd] in Hb.
      assert (Hst : st = state_at E (key_of r) (c_len c) (tn_path n ++ [d])) by congruence. assert (Hw : w = word_at E (key_of r) (c_len c) (tn_path n ++ [d])) by congruence. clear Hb.
      destruct (Hd h r (nth_error_In _ _ Hr)) as (st0 & w0 & Hk & He). destruct (Hd' h r (nth_error_In _ _ Hr)) as (st1 & w1 & _ & He').
      cbn [snd]. rewrite Hk. cbn [bind Nat.add]. rewrite Hs. unfold states_of. rewrite (index_some _ _ (state_at E (key_of r) (c_len c) (tn_path n))) by (rewrite nth_error_map', Hr; reflexivity).
      cbn [bind]. rewrite (proj1 (evals_at _ _ _ _ _ He)).
      apply evals_inv in He'. destruct He' as [(Hc & _)|(q & e & s0 & v0 & v1 & Hc & He0 & Hb & ->)]; [destruct (tn_path n); discriminate|].
      apply app_inj_tail in Hc. destruct Hc as [<- <-]. destruct (evals_fun _ _ _ _ _ _ _ _ He He0) as [<- _]. rewrite Hb.
      pose proof (ev_snoc _ _ _ _ _ _ _ _ _ He Hb) as He2. destruct (evals_at _ _ _ _ _ He2) as [Ha1 Ha2]. rewrite Hst, Hw, Ha1, Ha2. reflexivity.
Qed.

Definition fronts len reps (paths : list (list bool)) (f : list tree_node) : Prop := Forall2 (node_is len reps) paths f.
Definition crawlable len reps paths : Prop := forall p, In p paths -> defined_at len reps (p ++ [false]) /\ defined_at len reps (p ++ [true]).

Lemma fronts_mknode len reps paths : fronts len reps paths (map (mknode len reps) paths).
Proof. induction paths; constructor; [apply mknode_is|assumption]. Qed.
Lemma fronts_paths len reps paths f : fronts len reps paths f -> map tn_path f = paths.
Proof. induction 1 as [|p n ps f (Hp & _) H IH]; [reflexivity|]. cbn. rewrite Hp, IH. reflexivity. Qed.
Lemma fronts_same len a b paths f : same_shares a b -> fronts len a paths f -> fronts len b paths f.
Proof. intros Hs H. induction H; constructor; [eapply node_is_same; eauto|assumption]. Qed.

Lemma crawl_children_ret c b paths : fronts (c_len c) (c_reports c) paths (c_frontier c) ->
  (forall p, In p paths -> defined_at (c_len c) (c_reports c) p) -> crawlable (c_len c) (c_reports c) paths ->
  (b = true -> exists d, c_depth c = Some d /\ forall p, In p paths -> length p <= d) ->
  crawl_children E c b = Ret (map (mknode (c_len c) (c_reports c)) (children paths)).
Proof.
  intros Hf Hd Hc Hb. unfold crawl_children.
  rewrite (mapM_intro _ _ (map (fun p => [mknode (c_len c) (c_reports c) (p ++ [false]); mknode (c_len c) (c_reports c) (p ++ [true])]) paths)).
  - cbn [bind]. unfold children. rewrite concat_map, map_map. reflexivity.
  - remember (c_frontier c) as f eqn:Hfr. clear Hfr. induction Hf as [|p n ps f Hn Hf IH]; constructor.
    + cbn. rewrite (proj1 Hn).
      assert (Hu : (if b then let! d := unwrap (c_depth c) in assert_ (length p <=? d) else Ret tt) = Ret tt).
      { destruct b; [|reflexivity]. destruct (Hb eq_refl) as (d & -> & Hl). cbn [unwrap bind]. apply assert_true, Nat.leb_le, Hl. left. reflexivity. }
      rewrite Hu. cbn [bind].
      destruct (Hc p (or_introl eq_refl)) as [Hc0 Hc1]. pose proof (Hd p (or_introl eq_refl)) as Hdp.
      rewrite (proj2 (make_tree_node_iff c p n false _ Hn Hdp) (conj Hc0 eq_refl)). cbn [bind].
      rewrite (proj2 (make_tree_node_iff c p n true _ Hn Hdp) (conj Hc1 eq_refl)). reflexivity.
    + apply IH; [intros q Hq; apply Hd; right; exact Hq|intros q Hq; apply Hc; right; exact Hq|].
      intros Hbt. destruct (Hb Hbt) as (d & Hdd & Hl). exists d. split; [exact Hdd|]. intros q Hq. apply Hl. right. exact Hq.
Qed.
Lemma crawl_children_only c b paths next : fronts (c_len c) (c_reports c) paths (c_frontier c) ->
  (forall p, In p paths -> defined_at (c_len c) (c_reports c) p) ->
  crawl_children E c b = Ret next -> next = map (mknode (c_len c) (c_reports c)) (children paths) /\ crawlable (c_len c) (c_reports c) paths.
Proof.
  intros Hf Hd H. apply crawl_children_inv in H. destruct H as (pairs & -> & Hp). remember (c_frontier c) as f eqn:Hfr. clear Hfr.
  revert pairs Hp. induction Hf as [|p n ps f Hn Hf IH]; intros pairs Hp; inversion Hp as [|n1 lr f1 prs [Hl Hr] Hp1]; subst.
  - split; [reflexivity|intros q []].
  - pose proof (Hd p (or_introl eq_refl)) as Hdp.
    apply (make_tree_node_iff c p n false _ Hn Hdp) in Hl. destruct Hl as [Hl0 Hl].
    apply (make_tree_node_iff c p n true _ Hn Hdp) in Hr. destruct Hr as [Hr0 Hr].
    destruct (IH (fun q Hq => Hd q (or_intror Hq)) _ Hp1) as [IH1 IH2].
    split; [|intros q [<-|Hq]; [split; assumption|apply IH2; exact Hq]].
    unfold children in *. cbn [map concat app]. rewrite IH1, Hl, Hr. reflexivity.
Qed.

Lemma nth_seq_map {A} (l : list A) d n f : (forall j, j < n -> nth j l d = f j) -> length l = n -> l = map f (seq 0 n).
Proof.
  intros H <-. apply nth_error_ext. intros i. rewrite nth_error_map'. destruct (nth_error l i) as [x|] eqn:Hx.
  - assert (i < length l) by (apply nth_error_Some; congruence). rewrite nth_error_seq by assumption. cbn. f_equal. rewrite <- H by assumption. symmetry. apply nth_error_nth. exact Hx.
  - apply nth_error_None in Hx. rewrite (proj2 (nth_error_None _ _)); [reflexivity|rewrite seq_length; exact Hx].
Qed.
End Level.

Lemma vec_add_get a b j : j < length a -> nth j (vec_add a b) (of_Z 0) = fadd (nth j a (of_Z 0)) (nth j b (of_Z 0)).
Proof.
  revert b j. induction a as [|x a IH]; intros [|y b] [|j] H; cbn [vec_add nth length] in *; try lia; try reflexivity; try (apply IH; lia);
    change (of_Z 0) with fzero; ring.
Qed.
Lemma vec_sub_get a b j : j < length a -> nth j (vec_sub a b) (of_Z 0) = fsub (nth j a (of_Z 0)) (nth j b (of_Z 0)).
Proof.
  revert b j. induction a as [|x a IH]; intros [|y b] [|j] H; cbn [vec_sub nth length] in *; try lia; try reflexivity; try (apply IH; lia);
    change (of_Z 0) with fzero; ring.
Qed.
Lemma vec_sub_len a b : length (vec_sub a b) = length a.
Proof. revert b. induction a as [|x a IH]; intros [|y b]; cbn; auto. Qed.

Lemma zeros_get n j : nth j (zeros n) (of_Z 0) = of_Z 0.
Proof. unfold zeros. change (of_N 0) with (of_Z 0). apply nth_repeat. Qed.
Lemma repeat_get {A} (x d : A) n j : j < n -> nth j (repeat x n) d = x.
Proof. revert j. induction n as [|n IH]; intros [|j] H; cbn; try lia; [reflexivity|]. apply IH. lia. Qed.

Lemma value_check_at c level y y0 y1 : value_check c level y y0 y1 = check_at (c_sid c =? 0)%Z (c_len c) level y y0 y1.
Proof.
  unfold value_check, check_at.
  assert (Hz : length (zeros (c_len c + 1)) = c_len c + 1) by apply repeat_length.
  destruct (level =? 0); destruct (c_sid c =? 0)%Z; (apply (nth_seq_map _ (of_Z 0)); [intros j Hj|rewrite ?vec_sub_len, ?vec_add_length, ?vec_sub_len, ?vec_add_length; exact Hz]).
  all: repeat first [rewrite vec_add_get by (rewrite ?vec_sub_len, ?vec_add_length, Hz; exact Hj) | rewrite vec_sub_get by (rewrite ?vec_sub_len, ?vec_add_length, Hz; exact Hj)].
  all: rewrite zeros_get; change (of_N 1) with (of_Z 1); rewrite ?repeat_get by exact Hj; change (of_Z 0) with fzero; ring.
Qed.
Lemma check_at_length first len level y y0 y1 : length (check_at first len level y y0 y1) = len + 1.
Proof. unfold check_at. rewrite map_length, seq_length. reflexivity. Qed.

Section Crawl.
Variable E : env.

Lemma concat_pair_nth {A} (l : list (list bool)) (f : list bool -> A) i p : nth_error l i = Some p ->
  nth_error (map f (children l)) (2 * i) = Some (f (p ++ [false])) /\ nth_error (map f (children l)) (2 * i + 1) = Some (f (p ++ [true])).
Proof.
  revert i. induction l as [|q l IH]; intros [|i] H; cbn in H; try discriminate.
  - injection H as ->. split; reflexivity.
  - destruct (IH _ H) as [H1 H2]. unfold children in *. cbn [map concat app].
    replace (2 * S i) with (S (S (2 * i))) by lia. cbn [nth_error Nat.add]. split; [exact H1|exact H2].
Qed.

Definition checks_of (first : bool) len level (reps : list (bool * report_share)) paths : list (list (list fld)) :=
  map (fun p => map (fun hr => check_at first len level (word_at E (key_of (snd hr)) len p) (word_at E (key_of (snd hr)) len (p ++ [false])) (word_at E (key_of (snd hr)) len (p ++ [true]))) reps) paths.

Lemma y_checks_ret c level paths : fronts E (c_len c) (c_reports c) paths (c_frontier c) ->
  y_checks E c level (map (mknode E (c_len c) (c_reports c)) (children paths)) = Ret (checks_of (c_sid c =? 0)%Z (c_len c) level (c_reports c) paths).
Proof.
  intros Hf. unfold y_checks. pose proof (Forall2_len _ _ _ Hf) as Hlen. apply Forall2_nth in Hf. destruct Hf as [_ Hf].
  apply mapMi_intro; [unfold checks_of; rewrite map_length; exact Hlen|]. intros i n cks Hn Hc. cbn [Nat.add].
  unfold checks_of in Hc. rewrite nth_error_map' in Hc. destruct (nth_error paths i) as [p|] eqn:Hp; [|discriminate]. cbn [option_map] in Hc. injection Hc as <-.
  destruct (Hf _ _ _ Hp Hn) as (Hpa & Hst & Hva). destruct (concat_pair_nth _ (mknode E (c_len c) (c_reports c)) _ _ Hp) as [Hl Hr].
  rewrite (index_some _ _ _ Hl), (index_some _ _ _ Hr). cbn [bind]. rewrite Hva. cbn [mknode tn_values].
  rewrite !debug_assert_true by (unfold words_of; rewrite !map_length; apply Nat.eqb_refl). cbn [bind].
  apply mapMi_intro; [unfold words_of; rewrite !map_length; reflexivity|]. intros j y ck Hy Hck. cbn [Nat.add].
  unfold words_of in Hy |- *. rewrite nth_error_map' in Hy, Hck. destruct (nth_error (c_reports c) j) as [hr|] eqn:Hhr; [|discriminate].
  assert (Hs : forall A (a b : A), Some a = Some b -> a = b) by congruence. cbn [option_map] in Hy, Hck. apply Hs in Hy, Hck. subst y ck.
  rewrite (index_some _ _ (word_at E (key_of (snd hr)) (c_len c) (p ++ [false]))) by (rewrite nth_error_map', Hhr; reflexivity).
  rewrite (index_some _ _ (word_at E (key_of (snd hr)) (c_len c) (p ++ [true]))) by (rewrite nth_error_map', Hhr; reflexivity).
  cbn [bind]. rewrite value_check_at. reflexivity.
Qed.

Lemma foldM_map {A B S} (f : S -> B -> outcome S) (g : A -> B) l : forall s, foldM f s (map g l) = foldM (fun s a => f s (g a)) s l.
Proof. induction l as [|x l IH]; intros s; cbn; [reflexivity|]. destruct (f s (g x)); cbn; [apply IH|reflexivity]. Qed.

Lemma xor_proofs_ret len reps paths i h r : nth_error reps i = Some (h, r) -> (forall p, In p paths -> p <> [] /\ defined_at E len reps p) ->
  xor_proofs (map (mknode E len reps) paths) i = Ret (proofs_xor E len paths (key_of r)).
Proof.
  intros Hr Hd. unfold xor_proofs, proofs_xor. rewrite foldM_map. apply foldM_ret. intros s p Hp. cbn [mknode tn_states]. unfold states_of.
  rewrite (index_some _ _ (state_at E (key_of r) len p)) by (rewrite nth_error_map', Hr; reflexivity). cbn [bind]. f_equal. f_equal.
  destruct (Hd _ Hp) as [Hne Hdp]. destruct (Hdp h r (nth_error_In _ _ Hr)) as (st & w & _ & He). rewrite (proj1 (evals_at _ _ _ _ _ _ He)).
  destruct w as [w|]; [symmetry; apply (evals_proof_at _ _ _ _ _ _ He)|]. inversion He; subst; contradiction.
Qed.

Lemma nth_map_in {A B} (f : A -> B) l i a d : nth_error l i = Some a -> nth i (map f l) d = f a.
Proof. intros H. apply nth_error_nth. rewrite nth_error_map', H. reflexivity. Qed.

Lemma children_in q paths : In q (children paths) <-> exists p d, In p paths /\ q = p ++ [d].
Proof.
  unfold children. rewrite in_concat. split.
  - intros (x & Hx & Hq). apply in_map_iff in Hx. destruct Hx as (p & <- & Hp). destruct Hq as [<-|[<-|[]]]; eauto.
  - intros (p & d & Hp & ->). exists [p ++ [false]; p ++ [true]]. split; [apply in_map_iff; eauto|]. destruct d; cbn; auto.
Qed.
Lemma crawlable_children len reps paths : crawlable E len reps paths -> forall q, In q (children paths) -> q <> [] /\ defined_at E len reps q.
Proof.
  intros Hc q Hq. apply children_in in Hq. destruct Hq as (p & d & Hp & ->). split; [destruct p; discriminate|].
  destruct (Hc _ Hp). destruct d; assumption.
Qed.

Lemma client_hash_ret c level paths i h r : nth_error (c_reports c) i = Some (h, r) -> crawlable E (c_len c) (c_reports c) paths ->
  client_hash E c level (map (mknode E (c_len c) (c_reports c)) (children paths)) (checks_of (c_sid c =? 0)%Z (c_len c) level (c_reports c) paths) i =
  Ret (verification_string E (c_sid c =? 0)%Z (c_len c) level paths (key_of r)).
Proof.
  intros Hr Hc. unfold client_hash. rewrite (xor_proofs_ret _ _ _ _ _ _ Hr (crawlable_children _ _ _ Hc)). cbn [bind].
  rewrite check_string.
  - cbn [bind]. unfold verification_string, check_string_of, used_all, checks_of. rewrite map_map.
    do 8 f_equal. apply map_ext. intros p. f_equal. rewrite (nth_map_in _ _ _ _ _ Hr). reflexivity.
  - intros pc Hin. unfold checks_of in Hin. apply in_map_iff in Hin. destruct Hin as (p & <- & _). eexists. split; [rewrite nth_error_map', Hr; reflexivity|]. apply check_at_length.
Qed.

Lemma honest_indices_map {B} (reps : list (bool * report_share)) (f : nat -> outcome B) (g : report_share -> B) :
  (forall i h r, nth_error reps i = Some (h, r) -> f i = Ret (g r)) ->
  mapM f (honest_indices reps) = Ret (map (fun hr => g (snd hr)) (filter (fun hr => fst hr) reps)).
Proof.
  intros H. unfold honest_indices.
  assert (Hg : forall suf pre, reps = pre ++ suf ->
    mapM f (filter (fun i => match nth_error reps i with Some (h, _) => h | None => false end) (seq (length pre) (length suf))) = Ret (map (fun hr => g (snd hr)) (filter (fun hr => fst hr) suf))).
  { induction suf as [|[h r] suf IH]; intros pre Heq; [reflexivity|]. cbn [length seq filter fst].
    assert (Hn : nth_error reps (length pre) = Some (h, r)) by (rewrite Heq, nth_error_app2, Nat.sub_diag by lia; reflexivity).
    rewrite Hn. specialize (IH (pre ++ [(h, r)])). rewrite app_length in IH. cbn [length] in IH. replace (length pre + 1) with (S (length pre)) in IH by lia.
    rewrite <- app_assoc in IH. specialize (IH Heq). destruct h; [|exact IH]. cbn [mapM]. rewrite (H _ _ _ Hn). cbn [bind]. rewrite IH. reflexivity. }
  apply (Hg reps []). reflexivity.
Qed.

(** the verification strings of the reports still accepted, in order *)
Definition strings_of (first : bool) len level paths (reps : list (bool * report_share)) : list bytes :=
  map (fun hr => verification_string E first len level paths (key_of (snd hr))) (filter (fun hr => fst hr) reps).

Definition ready (c : coll) (paths : list (list bool)) (level : nat) : Prop :=
  fronts E (c_len c) (c_reports c) paths (c_frontier c) /\ paths <> [] /\ (forall p, In p paths -> length p = level) /\
  (forall p, In p paths -> defined_at E (c_len c) (c_reports c) p).

Definition crawled (c : coll) (paths : list (list bool)) : coll :=
  set_frontier (set_prev c (c_frontier c)) (map (mknode E (c_len c) (c_reports c)) (children paths)).

Lemma tree_crawl_ret c paths level d split last : ready c paths level -> crawlable E (c_len c) (c_reports c) paths -> c_depth c = Some d -> level < d ->
  tree_crawl E c split [] last =
  let! '(r, i) := merkle_part E (strings_of (c_sid c =? 0)%Z (c_len c) level paths (c_reports c)) split [] last in
  Ret (crawled c paths, (map tn_value (map (mknode E (c_len c) (c_reports c)) (children paths)), r, i)).
Proof.
  intros (Hf & Hne & Hlv & Hd) Hc Hdep Hlt. unfold tree_crawl. cbn [crawl_prepare bind].
  destruct paths as [|p0 ps]; [contradiction|]. destruct (c_frontier c) as [|n0 f] eqn:Hfr; [inversion Hf|].
  cbn [index nth_error bind].
  assert (Hp0 : length (tn_path n0) = level) by (assert (Hn : node_is E (c_len c) (c_reports c) p0 n0) by (inversion Hf; assumption); rewrite (proj1 Hn); apply Hlv; left; reflexivity).
  rewrite Hp0, Hdep. cbn [unwrap bind].
  assert (Hu : (if dbg E then debug_assert true (level <? d) else Ret tt) = Ret tt) by (destruct (dbg E); [apply debug_assert_true, Nat.ltb_lt; exact Hlt|reflexivity]).
  rewrite Hu. cbn [bind]. clear Hu.
  rewrite (crawl_children_ret E c true (p0 :: ps)).
  - cbn [bind]. rewrite y_checks_ret by (rewrite Hfr; exact Hf). cbn [bind].
    rewrite (honest_indices_map _ _ (fun r => verification_string E (c_sid c =? 0)%Z (c_len c) level (p0 :: ps) (key_of r))).
    2:{ intros i h r Hr. rewrite (client_hash_ret _ _ _ _ _ _ Hr Hc). reflexivity. }
    cbn [bind]. rewrite debug_assert_true by (rewrite map_length; apply Nat.eqb_refl). cbn [bind].
    unfold strings_of, crawled. rewrite Hfr. reflexivity.
  - rewrite Hfr. exact Hf.
  - exact Hd.
  - exact Hc.
  - intros _. exists d. split; [exact Hdep|]. intros p Hp. rewrite (Hlv _ Hp). lia.
Qed.

Definition crawled_last (c : coll) (paths : list (list bool)) : coll :=
  set_frontier (set_final c (map (fun hr => proofs_xor E (c_len c) (children paths) (key_of (snd hr))) (filter (fun hr => fst hr) (c_reports c))))
               (map (mknode E (c_len c) (c_reports c)) (children paths)).
Lemma tree_crawl_last_ret c paths : fronts E (c_len c) (c_reports c) paths (c_frontier c) -> (forall p, In p paths -> defined_at E (c_len c) (c_reports c) p) ->
  crawlable E (c_len c) (c_reports c) paths ->
  tree_crawl_last E c = Ret (crawled_last c paths, map tn_value (map (mknode E (c_len c) (c_reports c)) (children paths))).
Proof.
  intros Hf Hd Hc. unfold tree_crawl_last. rewrite (crawl_children_ret E c false paths Hf Hd Hc) by discriminate. cbn [bind].
  rewrite (honest_indices_map _ _ (fun r => proofs_xor E (c_len c) (children paths) (key_of r))).
  2:{ intros i h r Hr. apply (xor_proofs_ret _ _ _ _ _ _ Hr). apply crawlable_children. exact Hc. }
  reflexivity.
Qed.
End Crawl.
