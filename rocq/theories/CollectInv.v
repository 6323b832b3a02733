(** Invariants of the collector over arbitrary request sequences: the frontier, the report list. *)
From Verif Require Import Base BaseFacts Field Util UtilFacts Env Prg Vidpf VidpfFacts SpecTree VidpfTreeFacts Merkle Collect Server SpecCollect SpecServer CollectFacts.

(** the report list only grows, and a cleared flag stays cleared *)
Definition reps_le (r r' : list (bool * report_share)) : Prop :=
  forall i h x, nth_error r i = Some (h, x) -> exists h', nth_error r' i = Some (h', x) /\ (h' = true -> h = true).
Lemma reps_le_refl r : reps_le r r.
Proof. intros i h x H. exists h. auto. Qed.
Lemma reps_le_trans r1 r2 r3 : reps_le r1 r2 -> reps_le r2 r3 -> reps_le r1 r3.
Proof.
  intros H1 H2 i h x H. destruct (H1 _ _ _ H) as (h' & H' & Hi). destruct (H2 _ _ _ H') as (h'' & H'' & Hi'). exists h''. auto.
Qed.
Lemma reps_le_app r l : reps_le r (r ++ l).
Proof. intros i h x H. exists h. split; [|auto]. rewrite nth_error_app1; [exact H|]. apply nth_error_Some. congruence. Qed.
Lemma reps_le_length r r' : reps_le r r' -> length r <= length r'.
Proof.
  intros H. destruct (le_lt_dec (length r) (length r')) as [Hl|Hl]; [exact Hl|exfalso].
  destruct (nth_error r (length r')) as [[h x]|] eqn:Hn; [|apply nth_error_None in Hn; lia].
  destruct (H _ _ _ Hn) as (h' & H' & _). assert (length r' < length r') by (apply nth_error_Some; congruence). lia.
Qed.
Lemma reps_le_update r m x : (exists h, nth_error r m = Some (h, x)) -> reps_le r (update m (false, x) r).
Proof.
  intros [h0 Hm] i h y H. destruct (Nat.eq_dec m i) as [<-|Hne].
  - rewrite update_nth_eq by (apply nth_error_Some; congruence). exists false. split; [congruence|discriminate].
  - rewrite update_nth_neq by exact Hne. exists h. auto.
Qed.
Lemma reps_le_mark keep r : length keep = length r -> reps_le r (mark keep r).
Proof.
  intros Hl i h x H. rewrite mark_nth by exact Hl. rewrite H.
  destruct (nth_error keep i) as [k|] eqn:Hk; [|apply nth_error_None in Hk; assert (i < length r) by (apply nth_error_Some; congruence); lia].
  exists (h && k). split; [reflexivity|]. intros Ha. apply andb_true_iff in Ha. apply Ha.
Qed.

(** [set] functions touch only the report list / frontier *)
Lemma reject_fold_le l : forall r r', foldM (fun reps m => let! hr := index reps m in Ret (update m (false, snd hr) reps)) r l = Ret r' -> reps_le r r' /\ length r' = length r.
Proof.
  induction l as [|m l IH]; intros r r' H; cbn [foldM] in H.
  - injection H as <-. split; [apply reps_le_refl|reflexivity].
  - bret H as r1 H1. bret H1 as [h x] Hi. apply index_ret in Hi. injection H1 as <-. cbn [snd] in H.
    apply IH in H. destruct H as [H Hl]. rewrite update_length in Hl. split; [|exact Hl].
    eapply reps_le_trans; [apply reps_le_update; eauto|exact H].
Qed.

Lemma add_reports_spec l : forall c, fold_left add_report_share l c = set_reports c (c_reports c ++ map (fun r => (true, r)) l).
Proof.
  induction l as [|r l IH]; intros c; cbn [fold_left map].
  - rewrite app_nil_r. destruct c; reflexivity.
  - rewrite IH. unfold add_report_share, set_reports. cbn. rewrite <- app_assoc. reflexivity.
Qed.

(** *** frontier *)
Section Front.
Variable E : env.

Definition node_ok (len : nat) (reports : list (bool * report_share)) (n : nat) (node : tree_node) : Prop :=
  length (tn_states node) = n /\ length (tn_values node) = n /\
  forall i st v, nth_error (tn_states node) i = Some st -> nth_error (tn_values node) i = Some v ->
    exists h r k w, nth_error reports i = Some (h, r) /\ unwrap_vidpf_key r = Ret k /\
      evals E k len (tn_path node) st w /\ v = match w with Some x => x | None => [of_N 0] end.

Definition front_ok (len : nat) (reports : list (bool * report_share)) (n : nat) (f : list tree_node) : Prop :=
  (forall node, In node f -> node_ok len reports n node) /\
  (exists L, forall node, In node f -> length (tn_path node) = L) /\
  sorted_paths (map tn_path f).

Definition cinv (c : coll) : Prop :=
  (exists n, n <= length (c_reports c) /\ front_ok (c_len c) (c_reports c) n (c_frontier c)) /\
  (exists n, n <= length (c_reports c) /\ front_ok (c_len c) (c_reports c) n (c_prev c)).

Lemma node_ok_mono len r r' n node : reps_le r r' -> node_ok len r n node -> node_ok len r' n node.
Proof.
  intros Hle (H1 & H2 & H3). split; [exact H1|]. split; [exact H2|]. intros i st v Hs Hv.
  destruct (H3 _ _ _ Hs Hv) as (h & x & k & w & Hr & Hk & He & Hw). destruct (Hle _ _ _ Hr) as (h' & Hr' & _).
  exists h', x, k, w. auto.
Qed.
Lemma front_ok_mono len r r' n f : reps_le r r' -> front_ok len r n f -> front_ok len r' n f.
Proof. intros Hle (H1 & H2). split; [|exact H2]. intros node Hn. eapply node_ok_mono; eauto. Qed.

Lemma make_tree_node_inv c parent d node : make_tree_node E c parent d = Ret node ->
  exists res, mapMi (fun i (hr : bool * report_share) =>
                 let! k := unwrap_vidpf_key (snd hr) in
                 let! st := index (tn_states parent) i in
                 eval_bit E k st d (bits_to_bitstring (tn_path parent ++ [d])) (c_len c)) 0 (c_reports c) = Ret res /\
  node = {| tn_path := tn_path parent ++ [d]; tn_value := sum_honest (c_len c + 1) (map snd res) (c_reports c);
            tn_states := map fst res; tn_values := map snd res |}.
Proof.
  unfold make_tree_node. intros H. bret H as res Hres. injection H as <-. exists res. split; [|reflexivity].
  rewrite <- Hres. apply mapMi_ext. intros. rewrite bits_snoc. reflexivity.
Qed.

Lemma make_tree_node_ok c n parent d node : n <= length (c_reports c) ->
  node_ok (c_len c) (c_reports c) n parent -> make_tree_node E c parent d = Ret node ->
  node_ok (c_len c) (c_reports c) (length (c_reports c)) node /\ n = length (c_reports c) /\
  tn_path node = tn_path parent ++ [d] /\ tn_value node = sum_honest (c_len c + 1) (tn_values node) (c_reports c).
Proof.
  intros Hn (Hs & Hv & Hp) H. apply make_tree_node_inv in H. destruct H as (res & H & ->).
  apply mapMi_nth in H. destruct H as [Hl Hi]. cbn [tn_path tn_value tn_states tn_values].
  assert (Hlen : n = length (c_reports c)).
  { destruct (Nat.eq_dec n (length (c_reports c))) as [->|Hne]; [reflexivity|exfalso].
    destruct (nth_error (c_reports c) n) as [[h r]|] eqn:Hr; [|apply nth_error_None in Hr; lia].
    destruct (nth_error res n) as [b|] eqn:Hb; [|apply nth_error_None in Hb; lia].
    specialize (Hi _ _ _ Hr Hb). bret Hi as k Hk. bret Hi as st Hst. apply index_ret in Hst.
    assert (n < length (tn_states parent)) by (apply nth_error_Some; cbn in Hst; congruence). lia. }
  split; [|split; [exact Hlen|split; reflexivity]].
  split; [cbn [tn_states]; rewrite map_length; exact Hl|]. split; [cbn [tn_values]; rewrite map_length; exact Hl|].
  cbn [tn_path tn_states tn_values]. intros i st v Hst Hvv. rewrite nth_error_map' in Hst. rewrite nth_error_map' in Hvv.
  destruct (nth_error res i) as [[st' w]|] eqn:Hb; [|discriminate]. cbn in Hst, Hvv. injection Hst as ->. injection Hvv as ->.
  destruct (nth_error (c_reports c) i) as [[h r]|] eqn:Hr.
  2:{ apply nth_error_None in Hr. assert (i < length res) by (apply nth_error_Some; congruence). lia. }
  specialize (Hi _ _ _ Hr Hb). bret Hi as k Hk. bret Hi as st0 Hst0. apply index_ret in Hst0. cbn in Hst0, Hk.
  assert (i < length (c_reports c)) by (apply nth_error_Some; congruence).
  destruct (nth_error (tn_values parent) i) as [v0|] eqn:Hv0; [|apply nth_error_None in Hv0; lia].
  destruct (Hp _ _ _ Hst0 Hv0) as (h' & r' & k' & w0 & Hr' & Hk' & He & _).
  rewrite Hr' in Hr. injection Hr as -> ->. rewrite Hk' in Hk. injection Hk as ->.
  exists h, r, k, (Some v). split; [first [exact Hr'|reflexivity]|]. split; [exact Hk'|]. split; [|reflexivity].
  eapply ev_snoc; [exact He|exact Hi].
Qed.

(** sortedness of the children *)
Lemma path_lt_snoc p q a b : length p = length q -> path_lt p q -> path_lt (p ++ [a]) (q ++ [b]).
Proof.
  revert q. induction p as [|x p IH]; intros [|y q] Hl H; cbn in *; try discriminate; try contradiction.
  destruct H as [H|[He H]]; [left; exact H|right]. split; [exact He|]. apply IH; [lia|exact H].
Qed.
Lemma path_lt_same p : path_lt (p ++ [false]) (p ++ [true]).
Proof. induction p as [|x p IH]; cbn; [left; auto|right; auto]. Qed.
Lemma path_lt_irrefl p : ~ path_lt p p.
Proof. induction p as [|x p IH]; cbn; [auto|]. intros [[H1 H2]|[_ H]]; [congruence|auto]. Qed.
Lemma path_lt_trans p : forall q r, path_lt p q -> path_lt q r -> path_lt p r.
Proof.
  induction p as [|x p IH]; intros [|y q] [|z r]; cbn; try tauto. intros [[H1 H2]|[H1 H2]] [[H3 H4]|[H3 H4]]; subst; try discriminate; auto.
  right. split; [reflexivity|]. eauto.
Qed.
Lemma sorted_children L (l : list (list bool)) : (forall p, In p l -> length p = L) -> sorted_paths l ->
  sorted_paths (concat (map (fun p => [p ++ [false]; p ++ [true]]) l)).
Proof.
  induction l as [|p l IH]; intros HL Hs; cbn [map concat app]; [exact I|]. destruct Hs as [Hp Hs].
  assert (Hrest : forall a q, In q (concat (map (fun p => [p ++ [false]; p ++ [true]]) l)) -> path_lt (p ++ [a]) q).
  { intros a q Hq. apply in_concat in Hq. destruct Hq as (x & Hx & Hq). apply in_map_iff in Hx. destruct Hx as (p' & <- & Hp').
    assert (Hll : length p = length p') by (rewrite (HL p), (HL p') by (cbn; auto); reflexivity).
    destruct Hq as [<-|[<-|[]]]; (apply path_lt_snoc; [exact Hll|apply Hp; exact Hp']). }
  cbn [sorted_paths]. split; [|split].
  - intros q [<-|Hq]; [apply path_lt_same|apply Hrest; exact Hq].
  - intros q Hq. apply Hrest; exact Hq.
  - apply IH; [intros; apply HL; cbn; auto|exact Hs].
Qed.
Lemma sorted_select keep : forall l, sorted_paths l -> sorted_paths (select keep l).
Proof.
  assert (Hin : forall keep l (x : list bool), In x (select keep l) -> In x l).
  { clear. induction keep as [|b keep IH]; intros [|a l] x H; cbn in H; try contradiction.
    destruct b; cbn in *; [destruct H as [H|H]; [auto|]|]; right; apply (IH l); exact H. }
  induction keep as [|b keep IH]; intros [|a l] H; cbn in *; auto. destruct H as [H1 H2].
  destruct b; cbn; [|apply IH; exact H2]. split; [|apply IH; exact H2]. intros q Hq. apply H1. eapply Hin; exact Hq.
Qed.
Lemma select_in {A} keep : forall l (x : A), In x (select keep l) -> In x l.
Proof.
  induction keep as [|b keep IH]; intros [|a l] x H; cbn in H; try contradiction.
  destruct b; cbn in *; [destruct H as [H|H]; [auto|]|]; right; apply (IH l); exact H.
Qed.
Lemma select_map {A B} (f : A -> B) keep : forall l, map f (select keep l) = select keep (map f l).
Proof. induction keep as [|b keep IH]; intros [|a l]; cbn; try reflexivity. destruct b; cbn; rewrite IH; reflexivity. Qed.

(** the children of a frontier *)
Definition children_of (c : coll) (parents next : list tree_node) : Prop :=
  Forall2 (fun node pr => exists l r, pr = [l; r] /\ make_tree_node E c node false = Ret l /\ make_tree_node E c node true = Ret r)
          parents (map (fun i => firstn 2 (skipn (2 * i) next)) (seq 0 (length parents))) /\
  length next = 2 * length parents.

Lemma crawl_children_inv c b next : crawl_children E c b = Ret next ->
  exists pairs, next = concat (map (fun lr : tree_node * tree_node => [fst lr; snd lr]) pairs) /\
    Forall2 (fun node lr => make_tree_node E c node false = Ret (fst lr) /\ make_tree_node E c node true = Ret (snd lr)) (c_frontier c) pairs.
Proof.
  unfold crawl_children. intros H. bret H as pairs Hp. injection H as <-. apply mapM_inv in Hp.
  induction Hp as [|node pr f pairs Hn Hp IH]; [exists []; split; [reflexivity|constructor]|].
  destruct IH as (ps & Heq & Hf). bret Hn as u Hu. bret Hn as l Hl. bret Hn as r Hr. injection Hn as <-.
  exists ((l, r) :: ps). split; [cbn [map concat fst snd]; rewrite Heq; reflexivity|constructor; auto].
Qed.

Lemma crawl_children_ok c b next n : n <= length (c_reports c) -> front_ok (c_len c) (c_reports c) n (c_frontier c) ->
  crawl_children E c b = Ret next ->
  front_ok (c_len c) (c_reports c) (length (c_reports c)) next /\
  map tn_path next = concat (map (fun p => [p ++ [false]; p ++ [true]]) (map tn_path (c_frontier c))) /\
  Forall (fun node => tn_value node = sum_honest (c_len c + 1) (tn_values node) (c_reports c)) next.
Proof.
  intros Hn (Hok & (L & HL) & Hs) H. apply crawl_children_inv in H. destruct H as (pairs & -> & Hf).
  assert (Hall : Forall (fun node => node_ok (c_len c) (c_reports c) (length (c_reports c)) node /\ length (tn_path node) = L + 1 /\
     tn_value node = sum_honest (c_len c + 1) (tn_values node) (c_reports c)) (concat (map (fun lr => [fst lr; snd lr]) pairs)) /\
     map tn_path (concat (map (fun lr : tree_node * tree_node => [fst lr; snd lr]) pairs)) = concat (map (fun p => [p ++ [false]; p ++ [true]]) (map tn_path (c_frontier c)))).
  { clear Hs. induction Hf as [|node [l r] f pairs [Hl Hr] Hf IH]; [split; [constructor|reflexivity]|].
    destruct IH as [IH1 IH2]; [intros; apply Hok; cbn; auto|intros; apply HL; cbn; auto|].
    cbn [map concat fst snd app] in *.
    assert (Hno : node_ok (c_len c) (c_reports c) n node) by (apply Hok; cbn; auto).
    assert (HnL : length (tn_path node) = L) by (apply HL; cbn; auto).
    destruct (make_tree_node_ok _ _ _ _ _ Hn Hno Hl) as (Ha & _ & Hpa & Hva).
    destruct (make_tree_node_ok _ _ _ _ _ Hn Hno Hr) as (Hb & _ & Hpb & Hvb).
    split.
    - constructor; [|constructor; [|exact IH1]].
      + split; [exact Ha|]. split; [rewrite Hpa, app_length; cbn; lia|exact Hva].
      + split; [exact Hb|]. split; [rewrite Hpb, app_length; cbn; lia|exact Hvb].
    - rewrite Hpa, Hpb, IH2. reflexivity. }
  destruct Hall as [Hall Hpaths]. rewrite Forall_forall in Hall. split; [|split; [exact Hpaths|]].
  - split; [intros; apply Hall; assumption|]. split; [exists (L + 1); intros; apply Hall; assumption|].
    rewrite Hpaths. eapply sorted_children; [|exact Hs]. intros p Hp. apply in_map_iff in Hp. destruct Hp as (x & <- & Hx). apply HL; exact Hx.
  - apply Forall_forall. intros; apply Hall; assumption.
Qed.

Lemma front_nil len r n : front_ok len r n [].
Proof. split; [intros ? []|]. split; [exists 0; intros ? []|exact I]. Qed.

Lemma cinv_new len sid d vk : cinv (coll_new len sid d vk).
Proof. split; exists 0; (split; [cbn; lia|apply front_nil]). Qed.

Lemma tree_init_inv c c' : tree_init c = Ret c' ->
  exists states, c' = set_frontier c [{| tn_path := []; tn_value := [of_N 0]; tn_states := states; tn_values := map (fun _ => [of_N 0]) (c_reports c) |}]
  /\ node_ok (c_len c) (c_reports c) (length (c_reports c)) {| tn_path := []; tn_value := [of_N 0]; tn_states := states; tn_values := map (fun _ => [of_N 0]) (c_reports c) |}.
Proof.
  unfold tree_init. intros H. bret H as states Hst. injection H as <-. exists states. split; [reflexivity|].
  apply mapM_inv in Hst. pose proof (Forall2_len _ _ _ Hst) as Hl. apply Forall2_nth in Hst. destruct Hst as [_ Hst].
  split; [cbn; lia|]. split; [cbn; apply map_length|]. cbn. intros i st v Hs Hv. rewrite nth_error_map' in Hv.
  destruct (nth_error (c_reports c) i) as [[h r]|] eqn:Hr; [|discriminate]. cbn in Hv. injection Hv as <-.
  specialize (Hst _ _ _ Hr Hs). bret Hst as k Hk. injection Hst as <-. exists h, r, k, None.
  split; [reflexivity|]. split; [exact Hk|]. split; [constructor|reflexivity].
Qed.

Lemma cinv_same c c' : c_len c' = c_len c -> reps_le (c_reports c) (c_reports c') -> c_frontier c' = c_frontier c -> c_prev c' = c_prev c ->
  cinv c -> cinv c'.
Proof.
  intros Hlen Hle Hf Hp [(n & Hn & H1) (m & Hm & H2)]. pose proof (reps_le_length _ _ Hle).
  split; [exists n|exists m]; (split; [lia|]); rewrite Hlen, ?Hf, ?Hp; eapply front_ok_mono; eauto.
Qed.

Lemma crawl_prepare_ok c mal last c' : crawl_prepare c mal last = Ret c' ->
  c_len c' = c_len c /\ c_sid c' = c_sid c /\ c_depth c' = c_depth c /\ reps_le (c_reports c) (c_reports c') /\ length (c_reports c') = length (c_reports c) /\
  c_prev c' = c_prev c /\ c_frontier c' = match mal with [] => c_frontier c | _ => c_prev c end /\
  (last = false \/ mal = [] -> c_reports c' = c_reports c).
Proof.
  intros H. destruct mal as [|m mal]; cbn [crawl_prepare] in H.
  - injection H as <-. repeat (split; [reflexivity || apply reps_le_refl|]). auto.
  - bret H as c1 H1. injection H as <-. destruct last.
    + unfold reject_clients in H1. bret H1 as reps Hr. injection H1 as <-. apply reject_fold_le in Hr. destruct Hr as [Hr Hl].
      repeat (split; [reflexivity || exact Hr || exact Hl|]). intros [Hc|Hc]; discriminate.
    + injection H1 as <-. repeat (split; [reflexivity || apply reps_le_refl|]). reflexivity.
Qed.

Lemma tree_crawl_inv c s m l c' v r i : tree_crawl E c s m l = Ret (c', (v, r, i)) ->
  exists c0 n0 next checks hashes,
    crawl_prepare c m l = Ret c0 /\ nth_error (c_frontier c0) 0 = Some n0 /\
    crawl_children E c0 true = Ret next /\ y_checks E c0 (length (tn_path n0)) next = Ret checks /\
    mapM (client_hash E c0 (length (tn_path n0)) next checks) (honest_indices (c_reports c0)) = Ret hashes /\
    merkle_part E hashes s m l = Ret (r, i) /\
    c' = set_frontier (set_prev c0 (c_frontier c0)) next /\ v = map tn_value next.
Proof.
  unfold tree_crawl. intros H. bret H as c0 Hprep. bret H as n0 Hn0. bret H as u1 Hd. bret H as next Hnext. bret H as checks Hchecks.
  bret H as hashes Hh. bret H as u2 Hda. bret H as [roots indices] Hmp. injection H as <- <- <- <-.
  apply index_ret in Hn0. exists c0, n0, next, checks, hashes. auto 10.
Qed.
Lemma tree_crawl_last_inv c c' v : tree_crawl_last E c = Ret (c', v) ->
  exists next proofs, crawl_children E c false = Ret next /\ mapM (xor_proofs next) (honest_indices (c_reports c)) = Ret proofs /\
  c' = set_frontier (set_final c proofs) next /\ v = map tn_value next.
Proof. unfold tree_crawl_last. intros H. bret H as next Hn. bret H as proofs Hp. injection H as <- <-. eauto 6. Qed.

Lemma body_step s q c' a : cinv (s_coll s) -> body E s q = Ret (c', a) ->
  cinv c' /\ (not_reset q -> reps_le (c_reports (s_coll s)) (c_reports c') /\ c_len c' = c_len (s_coll s)).
Proof.
  intros Hinv H. destruct q; cbn [body not_reset] in *.
  - destruct (hist_ok hist_buckets); [|discriminate]. injection H as <- <-. split; [apply cinv_new|tauto].
  - injection H as <- <-. rewrite add_reports_spec. split; [|split; [apply reps_le_app|reflexivity]].
    apply (cinv_same (s_coll s)); [reflexivity|apply reps_le_app|reflexivity|reflexivity|exact Hinv].
  - bret H as c1 H1. injection H as <- <-. apply tree_init_inv in H1. destruct H1 as (states & -> & Hn).
    split; [|split; [apply reps_le_refl|reflexivity]]. destruct Hinv as [_ Hprev]. split; [|exact Hprev].
    exists (length (c_reports (s_coll s))). split; [apply Nat.le_refl|]. split; [intros node [<-|[]]; exact Hn|].
    split; [exists 0; intros node [<-|[]]; reflexivity|]. cbn. split; [intros q []|exact I].
  - bret H as u Hu. bret H as v Hv. injection H as <- <-. split; [exact Hinv|split; [apply reps_le_refl|reflexivity]].
  - bret H as c1 H1. injection H as <- <-. rewrite apply_flp_results_spec in H1.
    destruct (length keep =? length (c_reports (s_coll s))) eqn:Hl; [|discriminate]. injection H1 as <-. apply Nat.eqb_eq in Hl.
    pose proof (reps_le_mark _ _ Hl). split; [|split; [assumption|reflexivity]].
    apply (cinv_same (s_coll s)); [reflexivity|assumption|reflexivity|reflexivity|exact Hinv].
  - bret H as [c1 [[v r] i]] H1. injection H as <- <-. apply tree_crawl_inv in H1.
    destruct H1 as (c0 & n0 & next & checks & hashes & Hp & _ & Hnext & _ & _ & _ & -> & _).
    apply crawl_prepare_ok in Hp. destruct Hp as (Hlen & _ & _ & Hle & Hlr & Hprev & Hfr & _).
    split; [|split; [exact Hle|exact Hlen]].
    assert (Hf : exists n, n <= length (c_reports c0) /\ front_ok (c_len c0) (c_reports c0) n (c_frontier c0)).
    { rewrite Hfr, Hlen. destruct Hinv as [(n & Hn & H1) (n' & Hn' & H2)]. pose proof (reps_le_length _ _ Hle).
      destruct malicious; [exists n|exists n']; (split; [lia|]); eapply front_ok_mono; eauto. }
    split; cbn; [|exact Hf]. destruct Hf as (n & Hn & Hf). destruct (crawl_children_ok _ _ _ _ Hn Hf Hnext) as [Hok _].
    exists (length (c_reports c0)). split; [apply Nat.le_refl|exact Hok].
  - bret H as [c1 v] H1. injection H as <- <-. apply tree_crawl_last_inv in H1. destruct H1 as (next & proofs & Hnext & _ & -> & _).
    split; [|split; [apply reps_le_refl|reflexivity]]. destruct Hinv as [(n & Hn & Hf) Hprev]. split; [|exact Hprev].
    destruct (crawl_children_ok _ _ _ _ Hn Hf Hnext) as [Hok _]. exists (length (c_reports (s_coll s))). split; [apply Nat.le_refl|exact Hok].
  - bret H as u Hu. injection H as <- <-. split; [exact Hinv|split; [apply reps_le_refl|reflexivity]].
  - bret H as c1 H1. injection H as <- <-. rewrite tree_prune_spec in H1.
    destruct (length keep =? length (c_frontier (s_coll s))); [|discriminate]. injection H1 as <-.
    split; [|split; [apply reps_le_refl|reflexivity]]. destruct Hinv as [(n & Hn & Hok & (L & HL) & Hs) Hprev]. split; [|exact Hprev].
    exists n. split; [exact Hn|]. cbn. split; [intros node Hi; apply Hok; eapply select_in; exact Hi|].
    split; [exists L; intros node Hi; apply HL; eapply select_in; exact Hi|]. rewrite select_map. apply sorted_select. exact Hs.
  - injection H as <- <-. split; [exact Hinv|split; [apply reps_le_refl|reflexivity]].
  - bret H as [c1 v] H1. injection H as <- <-. unfold abm_validate in H1. destruct (stop <? start); [discriminate|].
    bret H1 as rs Hrs. injection H1 as <- <-. split; [exact Hinv|split; [apply reps_le_refl|reflexivity]].
  - bret H as [c1 v] H1. injection H as <- <-. unfold abm_result in H1. bret H1 as m Hm. injection H1 as <- <-.
    split; [exact Hinv|split; [apply reps_le_refl|reflexivity]].
  - bret H as [c1 v] H1. injection H as <- <-. unfold pm_validate in H1. destruct (stop <? start); [discriminate|].
    destruct (s_id s <? 0)%Z; [discriminate|]. destruct (negb _); [discriminate|]. bret H1 as rs Hrs. injection H1 as <- <-.
    split; [exact Hinv|split; [apply reps_le_refl|reflexivity]].
  - bret H as [c1 [a1 r1]] H1. injection H as <- <-. unfold pm_result in H1. destruct (negb _); [discriminate|].
    bret H1 as [m outs] Hm. bret H1 as agg Hagg. injection H1 as <- <- <-. split; [exact Hinv|split; [apply reps_le_refl|reflexivity]].
Qed.

Lemma handle_inv s q s' a : handle E s q = (s', a) ->
  (s' = s /\ exists p, a = Panic p) \/ (s_poison s = false /\ s' = set_poison s /\ exists p, a = Panic p /\ body E s q = Panic p) \/
  (s_poison s = false /\ exists c r, body E s q = Ret (c, r) /\ s' = set_coll s c /\ a = Ret r).
Proof.
  unfold handle. intros H. destruct (prelock E q); [|injection H as <- <-; left; eauto].
  destruct (s_poison s); [injection H as <- <-; left; eauto|]. right.
  destruct (body E s q) as [[c r]|p] eqn:Hb; injection H as <- <-; [right|left]; eauto 10.
Qed.

Lemma handle_step s q : cinv (s_coll s) -> cinv (s_coll (fst (handle E s q))) /\
  (not_reset q -> reps_le (c_reports (s_coll s)) (c_reports (s_coll (fst (handle E s q)))) /\ c_len (s_coll (fst (handle E s q))) = c_len (s_coll s)).
Proof.
  intros Hinv. destruct (handle E s q) as [s' a] eqn:H. cbn [fst]. apply handle_inv in H.
  destruct H as [(-> & _)|[(_ & -> & _)|(_ & c & r & Hb & -> & _)]].
  - split; [exact Hinv|]. split; [apply reps_le_refl|reflexivity].
  - split; [exact Hinv|]. split; [apply reps_le_refl|reflexivity].
  - exact (body_step _ _ _ _ Hinv Hb).
Qed.
Lemma handle_all_cinv qs : forall s, cinv (s_coll s) -> cinv (s_coll (fst (handle_all E s qs))).
Proof.
  induction qs as [|q qs IH]; intros s H; cbn [handle_all]; [exact H|].
  destruct (handle E s q) as [s1 a] eqn:Hh. destruct (handle_all E s1 qs) as [s2 l] eqn:Ha. cbn [fst].
  specialize (IH s1). rewrite Ha in IH. apply IH. pose proof (proj1 (handle_step s q H)) as H1. rewrite Hh in H1. exact H1.
Qed.
Lemma handle_all_reps qs : forall s, Forall not_reset qs -> cinv (s_coll s) ->
  reps_le (c_reports (s_coll s)) (c_reports (s_coll (fst (handle_all E s qs)))) /\ c_len (s_coll (fst (handle_all E s qs))) = c_len (s_coll s).
Proof.
  induction qs as [|q qs IH]; intros s Hf H; cbn [handle_all]; [split; [apply reps_le_refl|reflexivity]|].
  inversion Hf as [|? ? Hq Hqs]; subst.
  destruct (handle E s q) as [s1 a] eqn:Hh. destruct (handle_all E s1 qs) as [s2 l] eqn:Ha. cbn [fst].
  destruct (handle_step s q H) as [H1 H2]. destruct (H2 Hq) as [H2a H2b]. rewrite Hh in H1, H2a, H2b.
  destruct (IH s1 Hqs H1) as [IH1 IH2]. rewrite Ha in IH1, IH2. cbn [fst] in *.
  split; [eapply reps_le_trans; eauto|congruence].
Qed.
End Front.
