(** Proofs about traverse and eval_tree (C04, C05). *)
From Verif Require Import Base BaseFacts Field Util UtilFacts Env Prg PrgFacts PrgSpecFacts2 Vidpf SpecPrg SpecVidpf SpecTree VidpfFacts VidpfEvalFacts.

Section OneKey.
Variable E : env.
Hypothesis Hok : env_ok E.
Variable k : vidpf_key.
Variable len : nat.

(** state and word share at a path *)
Inductive evals : list bool -> eval_state -> option (list fld) -> Prop :=
| ev_nil : evals [] (eval_init k) None
| ev_snoc p st w d st' w' : evals p st w -> eval_bit E k st d (bits_to_bitstring (p ++ [d])) len = Ret (st', w') ->
    evals (p ++ [d]) st' (Some w').

Lemma evals_inv q st w : evals q st w ->
  (q = [] /\ st = eval_init k /\ w = None) \/
  exists p d st0 w0 w1, q = p ++ [d] /\ evals p st0 w0 /\
    eval_bit E k st0 d (bits_to_bitstring (p ++ [d])) len = Ret (st, w1) /\ w = Some w1.
Proof. intros H; inversion H; subst; [left; auto|right]. repeat eexists; eauto. Qed.

Lemma evals_fun p : forall st w st' w', evals p st w -> evals p st' w' -> st = st' /\ w = w'.
Proof.
  induction p as [|d p IH] using rev_ind; intros st w st' w' H H'.
  - apply evals_inv in H, H'. destruct H as [(_ & -> & ->)|(p & d & ? & ? & ? & Hc & _)]; [|destruct p; discriminate].
    destruct H' as [(_ & -> & ->)|(p & d & ? & ? & ? & Hc & _)]; [auto|destruct p; discriminate].
  - apply evals_inv in H, H'.
    destruct H as [(Hc & _)|(p1 & d1 & s1 & w1 & v1 & Hc & He & Hb & ->)]; [destruct p; discriminate|].
    apply app_inj_tail in Hc. destruct Hc as [<- <-].
    destruct H' as [(Hc & _)|(p2 & d2 & s2 & w2 & v2 & Hc & He' & Hb' & ->)]; [destruct p; discriminate|].
    apply app_inj_tail in Hc. destruct Hc as [<- <-].
    destruct (IH _ _ _ _ He He') as [<- <-]. rewrite Hb in Hb'. injection Hb' as <- <-. auto.
Qed.

(** the same walk as eval_loop *)
Lemma eval_loop_evals idx : forall p st w st' bs out,
  evals p st w -> eval_loop E k st (bits_to_bitstring p) idx len = Ret (st', bs, out) ->
  evals (p ++ idx) st' (last (map Some out) w) /\ length out = length idx.
Proof.
  induction idx as [|d idx IH]; intros p st w st' bs out He H; cbn [eval_loop] in H.
  - injection H as <- <- <-. rewrite app_nil_r. cbn. auto.
  - rewrite <- bits_snoc in H. bret H as [st1 w1] Hb. bret H as [[st2 bs2] o2] Hl. injection H as <- <- <-.
    pose proof (ev_snoc _ _ _ _ _ _ He Hb) as He'.
    apply (IH _ _ _ _ _ _ He') in Hl. rewrite <- app_assoc in Hl. destruct Hl as [Hl Hlen]. cbn [app] in Hl.
    split; [|cbn; lia]. replace (last (map Some (w1 :: o2)) w) with (last (map Some o2) (Some w1)); [exact Hl|].
    clear. cbn [map]. destruct (map Some o2) as [|x l] eqn:Hm; [reflexivity|].
    cbn [last]. clear Hm. revert x. induction l as [|y l IH]; intros x; [reflexivity|]. cbn [last] in *. apply IH.
Qed.
Lemma eval_loop_evals_init idx st bs out :
  eval_loop E k (eval_init k) [] idx len = Ret (st, bs, out) ->
  evals idx st (last (map Some out) None) /\ length out = length idx.
Proof. intros H. apply (eval_loop_evals idx [] (eval_init k) None st bs out); [constructor|exact H]. Qed.

Lemma evals_prefix p q st w : evals (p ++ q) st w -> exists st' w', evals p st' w' /\ (p <> [] -> w' <> None).
Proof.
  revert st w. induction q as [|d q IH] using rev_ind; intros st w H.
  - rewrite app_nil_r in H. exists st, w. split; [exact H|]. intros Hp. apply evals_inv in H.
    destruct H as [(Hc & _)|(? & ? & ? & ? & ? & _ & _ & _ & ->)]; [contradiction|discriminate].
  - rewrite app_assoc in H. apply evals_inv in H.
    destruct H as [(Hc & _)|(p1 & d1 & s1 & w1 & v1 & Hc & He & Hb & _)]; [destruct (p ++ q); discriminate|].
    apply app_inj_tail in Hc. destruct Hc as [<- <-]. eapply IH; exact He.
Qed.

(** lengths, for a typed key *)
Hypothesis Hty : key_typed k.
Definition st_typed (st : eval_state) : Prop := length (es_seed st) = 16 /\ length (es_proof st) = 16.

Lemma eval_bit_typed st d bs st' w : st_typed st -> eval_bit E k st d bs len = Ret (st', w) ->
  st_typed st' /\ length w = len + 1.
Proof.
  intros [Hs Hp] H. unfold eval_bit in H. rewrite (expand_dir_spec E Hok) in H by exact Hs. cbn [bind po_seeds po_bits] in H.
  bret H as [seed nb] Hsd.
  assert (Hsl : length seed = 16).
  { assert (Hc : length (tget (if negb d then ks_block E (mask_key (es_seed st)) 0 else repeat 0%N 16,
                               if d then ks_block E (mask_key (es_seed st)) 1 else repeat 0%N 16) d) = 16).
    { destruct d; cbn [tget fst snd negb]; apply (ks_block_length E Hok); rewrite mask_key_length; exact Hs. }
    destruct (es_bit st).
    - bret Hsd as cw Hcw. apply index_ret, nth_error_In in Hcw. injection Hsd as <- <-.
      apply seed_xor_length; [exact Hc|apply (proj1 (proj2 Hty)); exact Hcw].
    - injection Hsd as <- <-. exact Hc. }
  rewrite (convert_conv E Hok) in H by exact Hsl. cbn [bind] in H.
  bret H as word Hw.
  assert (Hwl : length word = len + 1).
  { destruct nb; [bret Hw as cw _; injection Hw as <-; rewrite vec_add_length|injection Hw as <-]; apply conv_word_length. }
  bret H as h Hh. assert (Hr : forall A (a b : A), Ret a = Ret b -> a = b) by congruence.
  apply Hr, pair_equal_spec in H. destruct H as [<- <-]. unfold st_typed. cbn [es_seed es_proof].
  assert (HB : forall b, length (blake3 E b) = 32) by (apply Hok).
  repeat split.
  - apply (conv_seed_length E Hok). exact Hsl.
  - rewrite xor_vec_length, firstn_length, HB. unfold HASH_SIZE. lia.
  - destruct (key_idx k); rewrite ?vec_neg_length; exact Hwl.
Qed.

Lemma evals_typed p st w : evals p st w -> st_typed st /\ forall x, w = Some x -> length x = len + 1.
Proof.
  induction 1 as [|p st w d st' w' He IH Hb].
  - split; [|discriminate]. split; [exact (proj1 Hty)|apply repeat_length].
  - destruct IH as [IH _]. apply eval_bit_typed in Hb; [|exact IH]. split; [apply Hb|]. intros x [= <-]. apply Hb.
Qed.

(** sign of a party *)
Definition sgn (x : list fld) : list fld := if key_idx k then vec_neg x else x.
Lemma sgn_length x : length (sgn x) = length x.
Proof. unfold sgn. destruct (key_idx k); [apply vec_neg_length|reflexivity]. Qed.

(** well-formed node at path p *)
Fixpoint nwf (p : list bool) (n : enode) : Prop :=
  let '(ENode bs w pc st l r) := n in
  bs = bits_to_bitstring p /\ evals p st w /\
  match l, r with
  | None, None => pc = None
  | Some ln, Some rn =>
      nwf (p ++ [false]) ln /\ nwf (p ++ [true]) rn /\
      match w, n_word ln, n_word rn with
      | Some x, Some xl, Some xr => pc = Some (sgn (vec_sub (vec_sub x xl) xr))
      | None, _, _ => pc = None
      | _, _, _ => False
      end
  | _, _ => False
  end.

Lemma nwf_evals p n : nwf p n -> evals p (n_state n) (n_word n).
Proof. destruct n; cbn. intuition. Qed.
Lemma nwf_root : nwf [] (new_root_from_key k).
Proof. cbn. repeat split. constructor. Qed.

(** nodes opened (evaluated) in a tree *)
Fixpoint node_at (n : enode) (q : list bool) {struct q} : option enode :=
  match q with
  | [] => Some n
  | b :: q' => let '(ENode _ _ _ _ l r) := n in
               match (if b then r else l) with Some c => node_at c q' | None => None end
  end.

Lemma nwf_node_at q : forall p n m, nwf p n -> node_at n q = Some m -> nwf (p ++ q) m.
Proof.
  induction q as [|b q IH]; intros p n m Hn Hm; cbn [node_at] in Hm.
  - injection Hm as <-. rewrite app_nil_r. exact Hn.
  - destruct n as [bs w pc st l r]. cbn [nwf] in Hn. destruct Hn as (_ & _ & Hc).
    destruct l as [ln|], r as [rn|]; try contradiction; [|destruct b; discriminate].
    destruct Hc as (Hl & Hr & _). replace (p ++ b :: q) with ((p ++ [b]) ++ q) by (rewrite <- app_assoc; reflexivity).
    destruct b; eapply IH; eassumption.
Qed.

Definition leaf (n : enode) : Prop := exists bs w st, n = ENode bs (Some w) None st None None.
Lemma node_next_leaf bs st b c : node_next E k bs st b len = Ret c -> leaf c.
Proof. unfold node_next. intros H. bret H as [st' x] Hb. injection H as <-. repeat eexists. Qed.
Lemma node_next_wf p bs st b c w : bs = bits_to_bitstring p -> evals p st w ->
  node_next E k bs st b len = Ret c -> nwf (p ++ [b]) c /\ n_word c <> None.
Proof.
  intros -> He H. unfold node_next in H. bret H as [st' x] Hb. injection H as <-. rewrite <- bits_snoc in *.
  cbn. split; [|discriminate]. repeat split. econstructor; eassumption.
Qed.

End OneKey.

(** one step of traverse: both children exist afterwards; a chunk is absorbed iff the node has a word
    share and is visited for the first time *)
Lemma traverse_step E k len p b path bs w pc st l r tr res :
  nwf E k len p (ENode bs w pc st l r) ->
  traverse E k len (b :: path) (ENode bs w pc st l r) tr = Ret res ->
  exists ln rn chunk pc' c' reached tr'',
    nwf E k len p (ENode bs w pc' st (Some ln) (Some rn)) /\
    (forall ln0, l = Some ln0 -> ln = ln0) /\ (forall rn0, r = Some rn0 -> rn = rn0) /\
    (pc' = match w with Some _ => pc' | None => None end) /\
    chunk = match l, pc' with None, Some x => concat (map get_encoded x) | _, _ => [] end /\
    (l <> None -> pc' = pc) /\ (l = None -> leaf ln /\ leaf rn) /\
    traverse E k len path (if b then rn else ln) (tr ++ chunk) = Ret (c', reached, tr'') /\
    res = (ENode bs w pc' st (Some (if b then ln else c')) (Some (if b then c' else rn)), reached, tr'').
Proof.
  intros Hn H. pose proof Hn as Hn0. cbn [nwf] in Hn. destruct Hn as (Hbs & Hev & Hc). cbn [traverse] in H.
  destruct l as [ln|], r as [rn|]; try contradiction.
  - (* already opened *)
    destruct Hc as (Hl & Hr & Hpc).
    assert (Hp : match w with Some x => match pc with Some _ => None | None => Some x end | None => None end = None :> option (list fld)).
    { destruct w; [|reflexivity]. destruct (n_word ln), (n_word rn); try contradiction. rewrite Hpc. reflexivity. }
    rewrite Hp in H. cbn [bind] in H.
    exists ln, rn, [], pc. rewrite app_nil_r.
    assert (Hw : pc = match w with Some _ => pc | None => None end) by (destruct w; [reflexivity|exact Hpc]).
    destruct b; cbn [negb] in H; bret H as [[c' reached] tr''] Ht; injection H as <-;
      exists c', reached, tr''; (split; [exact Hn0|]); (split; [congruence|]); (split; [congruence|]);
      (split; [exact Hw|]); (split; [reflexivity|]); (split; [reflexivity|]); (split; [discriminate|]); auto.
  - (* first visit *)
    subst pc. bret H as [ln p1] Hl. bret Hl as cl Hcl. injection Hl as <- <-.
    bret H as [rn p2] Hr. bret Hr as cr Hcr. injection Hr as <- <-.
    destruct (node_next_wf _ _ _ _ _ _ _ _ _ Hbs Hev Hcl) as [Hwl Hnl].
    destruct (node_next_wf _ _ _ _ _ _ _ _ _ Hbs Hev Hcr) as [Hwr Hnr].
    set (pc' := match w, n_word cl, n_word cr with
                | Some x, Some xl, Some xr => Some (sgn k (vec_sub (vec_sub x xl) xr)) | _, _, _ => None end).
    set (chunk := match pc' with Some x => concat (map get_encoded x) | None => [] end).
    assert (Hgoal : (let '(pc'', tr') := match sub_child (sub_child (match w with Some x => Some x | None => None end) cl) cr with
                       | Some x => (Some (if key_idx k then vec_neg x else x),
                                    tr ++ concat (map get_encoded (if key_idx k then vec_neg x else x)))
                       | None => (None, tr) end in (pc'', tr')) = (pc', tr ++ chunk)).
    { unfold chunk, pc', sub_child, sgn. destruct w as [x|]; [|rewrite app_nil_r; reflexivity].
      destruct (n_word cl); [|contradiction]. destruct (n_word cr); [|contradiction]. reflexivity. }
    exists cl, cr, chunk, pc'.
    assert (Hnew : nwf E k len p (ENode bs w pc' st (Some cl) (Some cr))).
    { cbn [nwf]. repeat split; auto. unfold pc'. destruct w; [|reflexivity]. destruct (n_word cl); [|contradiction].
      destruct (n_word cr); [|contradiction]. reflexivity. }
    cbv zeta in Hgoal.
    destruct (match sub_child (sub_child (match w with Some x => Some x | None => None end) cl) cr with
                       | Some x => (Some (if key_idx k then vec_neg x else x),
                                    tr ++ concat (map get_encoded (if key_idx k then vec_neg x else x)))
                       | None => (None, tr) end) as [q1 q2] eqn:Hq.
    injection Hgoal as -> ->.
    assert (H' : (if negb b
         then let! '(lnode', r0, tr'') := traverse E k len path cl (tr ++ chunk)
              in Ret (ENode bs w pc' st (Some lnode') (Some cr), r0, tr'')
         else let! '(rnode', r0, tr'') := traverse E k len path cr (tr ++ chunk)
              in Ret (ENode bs w pc' st (Some cl) (Some rnode'), r0, tr'')) = Ret res).
    { rewrite <- H. destruct (sub_child (sub_child _ cl) cr) as [x|].
      - injection Hq as <- <-. reflexivity.
      - injection Hq as <- <-. reflexivity. }
    clear H Hq.
    assert (Hpcw : pc' = match w with Some _ => pc' | None => None end) by (unfold pc'; destruct w; reflexivity).
    destruct b; cbn [negb] in H'; bret H' as [[c' reached] tr''] Ht; injection H' as <-;
      exists c', reached, tr''; (split; [exact Hnew|]); (split; [discriminate|]); (split; [discriminate|]);
      (split; [exact Hpcw|]); (split; [reflexivity|]); (split; [intros Hx; exfalso; apply Hx; reflexivity|]);
      (split; [intros _; split; eapply node_next_leaf; eassumption|]); auto.
Qed.
