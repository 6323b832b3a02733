(** Properties C15-C17, C19-C21, C38-C41, C48 (src/collect.rs, src/bin/server.rs). *)
From Verif Require Import Base Field Util Env Prg Vidpf SpecTree Merkle Collect Server SpecCollect SpecServer
  CollectFacts CollectInv ServerFacts CollectPropFacts RefEnv VidpfPropFacts ExRun.

(** C15: after any request sequence (any reports, any arguments, failing requests included). *)
Theorem C15_frontier : forall E id bits h0 qs c,
  c = s_coll (fst (handle_all E (server_start id bits h0) qs)) ->
  (exists n, n <= length (c_reports c) /\
     forall node, In node (c_frontier c) -> holds_evaluations E (c_len c) (c_reports c) n node) /\
  (forall n1 n2, In n1 (c_frontier c) -> In n2 (c_frontier c) -> length (tn_path n1) = length (tn_path n2)) /\
  sorted_paths (map tn_path (c_frontier c)) /\ NoDup (map tn_path (c_frontier c)).
Proof. exact frontier_wf. Qed.
Print Assumptions C15_frontier.

(** C15: right after tree_init, tree_crawl or tree_crawl_last the nodes cover all reports. *)
Theorem C15_all_reports : forall E id bits h0 qs s q a s',
  s = fst (handle_all E (server_start id bits h0) qs) -> grows_tree q -> handle E s q = (s', Ret a) ->
  forall node, In node (c_frontier (s_coll s')) ->
  holds_evaluations E (c_len (s_coll s')) (c_reports (s_coll s')) (length (c_reports (s_coll s'))) node.
Proof. exact grow_all_reports. Qed.
Print Assumptions C15_all_reports.

(** C16 *)
Theorem C16_prune : forall c alive,
  (length alive <> length (c_frontier c) -> tree_prune c alive = Panic PAssert) /\
  (length alive = length (c_frontier c) -> exists c', tree_prune c alive = Ret c' /\
     c_frontier c' = select alive (c_frontier c) /\ c_prev c' = c_prev c /\ c_reports c' = c_reports c /\
     c_len c' = c_len c /\ c_sid c' = c_sid c /\ c_vk c' = c_vk c /\ c_depth c' = c_depth c /\
     c_final c' = c_final c /\ c_abm c' = c_abm c /\ c_pm c' = c_pm c).
Proof. exact prune_shape. Qed.
Print Assumptions C16_prune.

(** two levels of crawling and pruning: the frontier is {00, 10} *)
Example C15_C16_example :
  (let '(s, l) := ex_run rx 0 3 [QTreeCrawl 1 [] false; QTreePrune [true; true]; QTreeCrawl 1 [] false;
                                 QTreePrune [true; false; true; false]] in
   all_ok l && paths_eqb (ex_paths_of s) [[false; false]; [true; false]] &&
   list_eqb Bool.eqb (ex_flags s) [true; true; true]) = true.
Proof. exact ex_crawl2. Qed.

(** C17: the share returned for each child is the sum over the reports accepted at that moment. *)
Theorem C17_crawl_sum : forall E id bits h0 qs s split mal last s' v r i,
  s = fst (handle_all E (server_start id bits h0) qs) ->
  handle E s (QTreeCrawl split mal last) = (s', Ret (ACrawl v r i)) ->
  v = map tn_value (c_frontier (s_coll s')) /\ forall node, In node (c_frontier (s_coll s')) ->
  is_sum_of_accepted E (c_len (s_coll s')) (c_reports (s_coll s')) (tn_path node) (tn_value node).
Proof. exact crawl_sums. Qed.
Print Assumptions C17_crawl_sum.

Theorem C17_crawl_last_sum : forall E id bits h0 qs s s' v,
  s = fst (handle_all E (server_start id bits h0) qs) ->
  handle E s QTreeCrawlLast = (s', Ret (AFields v)) ->
  v = map tn_value (c_frontier (s_coll s')) /\ forall node, In node (c_frontier (s_coll s')) ->
  is_sum_of_accepted E (c_len (s_coll s')) (c_reports (s_coll s')) (tn_path node) (tn_value node).
Proof. exact crawl_last_sums. Qed.
Print Assumptions C17_crawl_last_sum.

(** three reports, the middle one rejected: the reconstructed counts are 1 and 1 *)
Example C17_example :
  (let '(s0, l0) := ex_run rx 0 3 [QApplyFlpResults [true; false; true]; QTreeCrawl 1 [] false] in
   let '(s1, l1) := ex_run rx 1 3 [QApplyFlpResults [true; false; true]; QTreeCrawl 1 [] false] in
   all_ok l0 && all_ok l1 &&
   match c_frontier (s_coll s0), c_frontier (s_coll s1) with
   | [a; b], [c; d] => fvals_eqb (vec_add (tn_value a) (tn_value c)) [of_Z 0; of_Z 1; of_Z 1] &&
                       fvals_eqb (vec_add (tn_value b) (tn_value d)) [of_Z 0; of_Z 1; of_Z 1]
   | _, _ => false end) = true.
Proof. exact ex_sum. Qed.

(** C19: a re-crawl without rejections returns the same counts in the same state ... *)
Theorem C19_recrawl : forall E c s1 m1 l1 c1 v1 r1 i1 s2 m2 c2 v2 r2 i2,
  tree_crawl E c s1 m1 l1 = Ret (c1, (v1, r1, i1)) -> m2 <> [] ->
  tree_crawl E c1 s2 m2 false = Ret (c2, (v2, r2, i2)) -> c2 = c1 /\ v2 = v1.
Proof. exact crawl_again_shape. Qed.
Print Assumptions C19_recrawl.

(** ... and succeeds exactly when the Merkle roots over the same leaves can be computed. *)
Theorem C19_recrawl_exact : forall E c s1 m1 l1 c1 v1 r1 i1,
  tree_crawl E c s1 m1 l1 = Ret (c1, (v1, r1, i1)) -> exists hashes,
  merkle_part E hashes s1 m1 l1 = Ret (r1, i1) /\
  forall s2 m2, m2 <> [] ->
  tree_crawl E c1 s2 m2 false = let! '(r2, i2) := merkle_part E hashes s2 m2 false in Ret (c1, (v1, r2, i2)).
Proof. exact tree_crawl_again. Qed.
Print Assumptions C19_recrawl_exact.

Example C19_example :
  (let '(s, l) := ex_run rx 1 3 [QTreeCrawl 1 [] false; QTreeCrawl 2 [0] false; QTreeCrawl 4 [0; 1] true; QTreeCrawl 1 [0] false] in
   all_ok l && list_eqb Bool.eqb (ex_flags s) [false; false; true] && paths_eqb (ex_paths_of s) [[false]; [true]]) = true.
Proof. exact ex_recrawl. Qed.

(** C20 *)
Theorem C20_threshold : forall len thr c0 c1 keep, keep_values len thr c0 c1 = Ret keep ->
  length keep = Nat.min (length c0) (length c1) /\
  forall i k, nth_error keep i = Some k -> exists v w a b,
    nth_error c0 i = Some v /\ nth_error c1 i = Some w /\ nth_error v len = Some a /\ nth_error w len = Some b /\
    ((fval (fadd a b) < 2 ^ 64)%Z -> (k = true <-> (thr <= fval (fadd a b))%Z)) /\
    (k = true <-> (thr <= fval (fadd a b) mod 2 ^ 64)%Z).
Proof. exact keep_shape. Qed.
Print Assumptions C20_threshold.

Theorem C20_total : forall len thr c0 c1,
  Forall (fun v => len < length v) c0 -> Forall (fun v => len < length v) c1 ->
  exists keep, keep_values len thr c0 c1 = Ret keep.
Proof. exact keep_total. Qed.
Print Assumptions C20_total.

(** threshold 2; counts 2 (shares -1 and 3), 1, and 2^64 + 1 *)
Example C20_example :
  keep_values 1 2 [[of_Z 9; of_Z (P - 1)]; [of_Z 0; of_Z 1]; [of_Z 0; of_Z (2 ^ 64)]]
                  [[of_Z 0; of_Z 3]; [of_Z 0; of_Z 0]; [of_Z 5; of_Z 1]] = Ret [true; false; false].
Proof. exact ex_keep. Qed.

(** C21 *)
Theorem C21_final_values : forall len r0 r1,
  (length r0 <> length r1 \/
   (exists i a b, nth_error r0 i = Some a /\ nth_error r1 i = Some b /\ res_path a <> res_path b) ->
     final_values len r0 r1 = Panic PAssert) /\
  (length r0 = length r1 ->
   (forall i a b, nth_error r0 i = Some a -> nth_error r1 i = Some b -> res_path a = res_path b) ->
     final_values len r0 r1 = Ret (filter (counter_nonzero len) (reconstruct len r0 r1))).
Proof. exact final_shape. Qed.
Print Assumptions C21_final_values.

Example C21_example :
  (match final_values 1 [{| res_path := [true]; res_value := [of_Z 2; of_Z (P - 1)] |};
                         {| res_path := [false]; res_value := [of_Z 0; of_Z 4] |}]
                        [{| res_path := [true]; res_value := [of_Z 3; of_Z 1] |};
                         {| res_path := [false]; res_value := [of_Z 5; of_Z 3] |}] with
   | Ret [r] => path_eqb (res_path r) [false] && fvals_eqb (res_value r) [of_Z 5; of_Z 7]
   | _ => false end) = true.
Proof. exact ex_final. Qed.

(** C38 *)
Theorem C38_reset : forall E id bits h0 qs0 vk h qs s,
  s = fst (handle_all E (server_start id bits h0) qs0) -> s_poison s = false -> hist_ok h = true ->
  handle_all E s (QReset vk h :: qs) =
  (fst (handle_all E (fresh_server id bits h vk) qs), Ret ADone :: snd (handle_all E (fresh_server id bits h vk) qs)).
Proof. exact reset_fresh. Qed.
Print Assumptions C38_reset.

Example C38_example :
  (let '(s, l) := ex_run rx 0 3 [QTreeCrawl 1 [] false; QApplyFlpResults [true; false; true]] in
   negb (s_poison s) && negb (length (c_reports (s_coll s)) =? 0) && hist_ok 4) = true.
Proof. exact ex_reset. Qed.

(** C39 *)
Theorem C39_poison : forall E s q p, s_poison s = false -> prelock E q = Ret tt -> body E s q = Panic p ->
  snd (handle E s q) = Panic p /\ forall qs,
  fst (handle_all E (fst (handle E s q)) qs) = fst (handle E s q) /\
  Forall panicked (snd (handle_all E (fst (handle E s q)) qs)).
Proof. exact panic_poisons. Qed.
Print Assumptions C39_poison.

Theorem C39_before_the_lock : forall E s q p, prelock E q = Panic p -> handle E s q = (s, Panic p).
Proof. exact prelock_harmless. Qed.
Print Assumptions C39_before_the_lock.

Example C39_example :
  (let '(s, l) := ex_run rx 0 1 [QTreePrune [true; true]; QReset ex_vk 2; QFinalShares] in
   s_poison s && list_eqb Bool.eqb (map is_ret l) [true; true; true; false; false; false]) = true /\
  (let '(s, l) := ex_run rx 0 1 [QAbmValidate [] 1 1; QFinalShares] in
   negb (s_poison s) && list_eqb Bool.eqb (map is_ret l) [true; true; true; false; true]) = true.
Proof. exact (conj ex_poison ex_prelock). Qed.

(** C40 *)
Theorem C40_never_readmitted : forall E id bits h0 qs0 qs s,
  s = fst (handle_all E (server_start id bits h0) qs0) -> Forall not_reset qs ->
  let s' := fst (handle_all E s qs) in
  (forall i, rejected s i -> rejected s' i) /\
  (forall i h r, nth_error (c_reports (s_coll s)) i = Some (h, r) ->
     exists h', nth_error (c_reports (s_coll s')) i = Some (h', r)).
Proof. exact never_readmitted. Qed.
Print Assumptions C40_never_readmitted.

(** C41 *)
Theorem C41_apply_flp_results : forall c keep,
  (length keep <> length (c_reports c) -> apply_flp_results c keep = Panic PAssert) /\
  (length keep = length (c_reports c) -> exists c', apply_flp_results c keep = Ret c' /\
     length (c_reports c') = length (c_reports c) /\
     (forall i k h r, nth_error keep i = Some k -> nth_error (c_reports c) i = Some (h, r) ->
        nth_error (c_reports c') i = Some (h && k, r)) /\
     c_frontier c' = c_frontier c /\ c_prev c' = c_prev c /\
     c_len c' = c_len c /\ c_sid c' = c_sid c /\ c_vk c' = c_vk c /\ c_depth c' = c_depth c /\
     c_final c' = c_final c /\ c_abm c' = c_abm c /\ c_pm c' = c_pm c).
Proof. exact flp_results_shape. Qed.
Print Assumptions C41_apply_flp_results.

(** two rounds: the second does not re-admit report 1 *)
Example C40_C41_example :
  (let '(s, l) := ex_run rx 1 3 [QApplyFlpResults [true; false; true]; QApplyFlpResults [false; true; true]] in
   all_ok l && list_eqb Bool.eqb (ex_flags s) [false; false; true]) = true.
Proof. exact ex_flp. Qed.

(** C48 *)
Theorem C48_commute : forall E qs0 qs1 l, interleaves qs0 qs1 l -> forall s0 s1, exists rs,
  run_stream E s0 s1 l = (fst (handle_all E s0 qs0), fst (handle_all E s1 qs1), rs) /\
  interleaves (snd (handle_all E s0 qs0)) (snd (handle_all E s1 qs1)) rs.
Proof. exact stream_independent. Qed.
Print Assumptions C48_commute.

Example C48_example :
  interleaves [QTreeInit; QFinalShares] [QReset ex_vk 1] [inl QTreeInit; inr (QReset ex_vk 1); inl QFinalShares].
Proof. exact ex_interleave. Qed.
