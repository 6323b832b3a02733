(** Lemmas in the exact shape of the collector and server properties, and their concrete cases. *)
From Verif Require Import Base BaseFacts Field Util UtilFacts Env Prg Vidpf SpecTree Merkle Collect Server Driver SpecCollect SpecServer
  CollectFacts CollectInv ServerFacts RefEnv VidpfPropFacts ExRun.

Lemma prune_shape c alive :
  (length alive <> length (c_frontier c) -> tree_prune c alive = Panic PAssert) /\
  (length alive = length (c_frontier c) -> exists c', tree_prune c alive = Ret c' /\
     c_frontier c' = select alive (c_frontier c) /\ c_prev c' = c_prev c /\ c_reports c' = c_reports c /\
     c_len c' = c_len c /\ c_sid c' = c_sid c /\ c_vk c' = c_vk c /\ c_depth c' = c_depth c /\
     c_final c' = c_final c /\ c_abm c' = c_abm c /\ c_pm c' = c_pm c).
Proof.
  rewrite tree_prune_spec. split; intros H.
  - rewrite (proj2 (Nat.eqb_neq _ _) H). reflexivity.
  - rewrite (proj2 (Nat.eqb_eq _ _) H). eexists. repeat (split; [reflexivity|]). reflexivity.
Qed.
Lemma flp_results_shape c keep :
  (length keep <> length (c_reports c) -> apply_flp_results c keep = Panic PAssert) /\
  (length keep = length (c_reports c) -> exists c', apply_flp_results c keep = Ret c' /\
     length (c_reports c') = length (c_reports c) /\
     (forall i k h r, nth_error keep i = Some k -> nth_error (c_reports c) i = Some (h, r) ->
        nth_error (c_reports c') i = Some (h && k, r)) /\
     c_frontier c' = c_frontier c /\ c_prev c' = c_prev c /\
     c_len c' = c_len c /\ c_sid c' = c_sid c /\ c_vk c' = c_vk c /\ c_depth c' = c_depth c /\
     c_final c' = c_final c /\ c_abm c' = c_abm c /\ c_pm c' = c_pm c).
Proof.
  rewrite apply_flp_results_spec. split; intros H.
  - rewrite (proj2 (Nat.eqb_neq _ _) H). reflexivity.
  - rewrite (proj2 (Nat.eqb_eq _ _) H). eexists. split; [reflexivity|].
    split; [cbn; unfold mark; rewrite map_length, combine_length; lia|].
    split; [|repeat (split; [reflexivity|]); reflexivity].
    intros i k h r Hk Hr. cbn. rewrite mark_nth by exact H. rewrite Hk, Hr. reflexivity.
Qed.
Lemma keep_shape len thr c0 c1 keep : keep_values len thr c0 c1 = Ret keep ->
  length keep = Nat.min (length c0) (length c1) /\
  forall i k, nth_error keep i = Some k -> exists v w a b,
    nth_error c0 i = Some v /\ nth_error c1 i = Some w /\ nth_error v len = Some a /\ nth_error w len = Some b /\
    ((fval (fadd a b) < 2 ^ 64)%Z -> (k = true <-> (thr <= fval (fadd a b))%Z)) /\
    (k = true <-> (thr <= fval (fadd a b) mod 2 ^ 64)%Z).
Proof.
  intros H. apply keep_values_inv in H. destruct H as [Hl H]. split; [exact Hl|]. intros i k Hk.
  destruct (H i k Hk) as (v & w & a & b & H1 & H2 & H3 & H4 & ->). exists v, w, a, b.
  repeat (split; [assumption|]). split.
  - intros Hlt. pose proof (fval_range (fadd a b)). rewrite Z.mod_small by lia. apply Z.leb_le.
  - apply Z.leb_le.
Qed.
Lemma keep_total len thr c0 c1 :
  Forall (fun v => len < length v) c0 -> Forall (fun v => len < length v) c1 -> exists keep, keep_values len thr c0 c1 = Ret keep.
Proof. intros H0 H1. eexists. apply keep_values_total; assumption. Qed.

Lemma crawl_again_shape E c s1 m1 l1 c1 v1 r1 i1 s2 m2 c2 v2 r2 i2 :
  tree_crawl E c s1 m1 l1 = Ret (c1, (v1, r1, i1)) -> m2 <> [] ->
  tree_crawl E c1 s2 m2 false = Ret (c2, (v2, r2, i2)) -> c2 = c1 /\ v2 = v1.
Proof.
  intros H Hm H2. destruct (tree_crawl_again _ _ _ _ _ _ _ _ _ H) as (hashes & _ & Ha). rewrite (Ha _ _ Hm) in H2.
  bret H2 as [r i] Hr. injection H2 as <- <- _ _. split; reflexivity.
Qed.

(** the final values, as a property of every entry *)
Lemma final_shape len r0 r1 :
  (length r0 <> length r1 \/ (exists i a b, nth_error r0 i = Some a /\ nth_error r1 i = Some b /\ res_path a <> res_path b) ->
     final_values len r0 r1 = Panic PAssert) /\
  (length r0 = length r1 -> (forall i a b, nth_error r0 i = Some a -> nth_error r1 i = Some b -> res_path a = res_path b) ->
     final_values len r0 r1 = Ret (filter (counter_nonzero len) (reconstruct len r0 r1))).
Proof.
  rewrite final_values_spec. split.
  - intros [H|(i & a & b & Ha & Hb & Hne)]; [rewrite (proj2 (Nat.eqb_neq _ _) H); reflexivity|].
    assert (Hf : forallb (fun rr => path_eqb (res_path (fst rr)) (res_path (snd rr))) (combine r0 r1) = false).
    { apply not_true_is_false. intros Ht. rewrite forallb_forall in Ht. apply Hne.
      assert (Hc : nth_error (combine r0 r1) i = Some (a, b)) by (rewrite nth_error_combine, Ha, Hb; reflexivity).
      apply nth_error_In in Hc. specialize (Ht _ Hc). apply path_eqb_eq in Ht. exact Ht. }
    rewrite Hf, andb_false_r. reflexivity.
  - intros Hl H. rewrite (proj2 (Nat.eqb_eq _ _) Hl).
    assert (Hf : forallb (fun rr => path_eqb (res_path (fst rr)) (res_path (snd rr))) (combine r0 r1) = true).
    { apply forallb_forall. intros [a b] Hin. apply In_nth_error in Hin. destruct Hin as [i Hi]. rewrite nth_error_combine in Hi.
      destruct (nth_error r0 i) eqn:Ha; [|discriminate]. destruct (nth_error r1 i) eqn:Hb; [|discriminate]. injection Hi as -> ->.
      apply path_eqb_eq. cbn. exact (H _ _ _ Ha Hb). }
    rewrite Hf. reflexivity.
Qed.

(** *** concrete cases *)
Lemma ex_crawl2 : (let '(s, l) := ex_run rx 0 3 [QTreeCrawl 1 [] false; QTreePrune [true; true]; QTreeCrawl 1 [] false; QTreePrune [true; false; true; false]] in
  all_ok l && paths_eqb (ex_paths_of s) [[false; false]; [true; false]] && list_eqb Bool.eqb (ex_flags s) [true; true; true]) = true.
Proof. vm_compute. reflexivity. Qed.
Lemma ex_recrawl : (let '(s, l) := ex_run rx 1 3 [QTreeCrawl 1 [] false; QTreeCrawl 2 [0] false; QTreeCrawl 4 [0; 1] true; QTreeCrawl 1 [0] false] in
  all_ok l && list_eqb Bool.eqb (ex_flags s) [false; false; true] && paths_eqb (ex_paths_of s) [[false]; [true]]) = true.
Proof. vm_compute. reflexivity. Qed.
Lemma ex_keep : keep_values 1 2 [[of_Z 9; of_Z (P - 1)]; [of_Z 0; of_Z 1]; [of_Z 0; of_Z (2 ^ 64)]] [[of_Z 0; of_Z 3]; [of_Z 0; of_Z 0]; [of_Z 5; of_Z 1]]
  = Ret [true; false; false].
Proof. vm_compute. reflexivity. Qed.
Lemma ex_final : (match final_values 1 [{| res_path := [true]; res_value := [of_Z 2; of_Z (P - 1)] |}; {| res_path := [false]; res_value := [of_Z 0; of_Z 4] |}]
                               [{| res_path := [true]; res_value := [of_Z 3; of_Z 1] |}; {| res_path := [false]; res_value := [of_Z 5; of_Z 3] |}] with
  | Ret [r] => path_eqb (res_path r) [false] && fvals_eqb (res_value r) [of_Z 5; of_Z 7]
  | _ => false end) = true.
Proof. vm_compute. reflexivity. Qed.
Lemma ex_flp : (let '(s, l) := ex_run rx 1 3 [QApplyFlpResults [true; false; true]; QApplyFlpResults [false; true; true]] in
  all_ok l && list_eqb Bool.eqb (ex_flags s) [false; false; true]) = true.
Proof. vm_compute. reflexivity. Qed.
(** a request that panics under the lock (prune with a wrong length), then a reset that fails *)
Lemma ex_poison : (let '(s, l) := ex_run rx 0 1 [QTreePrune [true; true]; QReset ex_vk 2; QFinalShares] in
  s_poison s && list_eqb Bool.eqb (map is_ret l) [true; true; true; false; false; false]) = true.
Proof. vm_compute. reflexivity. Qed.
(** a request that fails before the lock is taken does no harm *)
Lemma ex_prelock : (let '(s, l) := ex_run rx 0 1 [QAbmValidate [] 1 1; QFinalShares] in
  negb (s_poison s) && list_eqb Bool.eqb (map is_ret l) [true; true; true; false; true]) = true.
Proof. vm_compute. reflexivity. Qed.
Lemma ex_reset : (let '(s, l) := ex_run rx 0 3 [QTreeCrawl 1 [] false; QApplyFlpResults [true; false; true]] in
  negb (s_poison s) && negb (length (c_reports (s_coll s)) =? 0) && hist_ok 4) = true.
Proof. vm_compute. reflexivity. Qed.
Lemma ex_sum : (let '(s0, l0) := ex_run rx 0 3 [QApplyFlpResults [true; false; true]; QTreeCrawl 1 [] false] in
  let '(s1, l1) := ex_run rx 1 3 [QApplyFlpResults [true; false; true]; QTreeCrawl 1 [] false] in
  all_ok l0 && all_ok l1 &&
  match c_frontier (s_coll s0), c_frontier (s_coll s1) with
  | [a; b], [c; d] => fvals_eqb (vec_add (tn_value a) (tn_value c)) [of_Z 0; of_Z 1; of_Z 1] &&
                      fvals_eqb (vec_add (tn_value b) (tn_value d)) [of_Z 0; of_Z 1; of_Z 1]
  | _, _ => false end) = true.
Proof. vm_compute. reflexivity. Qed.
Lemma ex_interleave : interleaves [QTreeInit; QFinalShares] [QReset ex_vk 1] [inl QTreeInit; inr (QReset ex_vk 1); inl QFinalShares].
Proof. repeat constructor. Qed.
