(** Properties C33, C34, C36 (attribute-based and plain metrics, src/bin/server.rs, src/bin/driver.rs). *)
From Verif Require Import Base Field Util Env Prg Vidpf Merkle Collect Server Driver SpecCollect SpecServer SpecDriver SpecMetrics
  MetricsFacts PmFacts RefEnv VidpfPropFacts ExRun DriverPropFacts MetricsExamples.

(** C33: in a release build the rejected list has no influence at all: the answer is the sum over all
    validated reports. *)
Theorem C33_release_refuted : forall E c rejected n, dbg E = false ->
  exists agg, abm_result E c rejected n = Ret (c, agg) /\ is_table (c_len c) n (map snd (c_abm c)) agg.
Proof. exact abm_release. Qed.
Print Assumptions C33_release_refuted.

(** in a debug build: the sum over the reports that are not rejected, provided every rejected index was
    validated and is listed once; otherwise a panic *)
Theorem C33_debug : forall E c rejected n, dbg E = true ->
  (NoDup rejected -> incl rejected (map fst (c_abm c)) ->
     exists agg, abm_result E c rejected n = Ret (set_abm c (without rejected (c_abm c)), agg) /\
                 is_table (c_len c) n (map snd (without rejected (c_abm c))) agg) /\
  (~ (NoDup rejected /\ incl rejected (map fst (c_abm c))) -> abm_result E c rejected n = Panic PDebugAssert).
Proof. exact abm_debug. Qed.
Print Assumptions C33_debug.

(** each report occurs at most once among the validated ones, whatever was requested before *)
Theorem C33_keys_unique : forall E id bits h0 qs,
  NoDup (map fst (c_abm (s_coll (fst (handle_all E (server_start id bits h0) qs))))).
Proof. exact abm_keys_unique. Qed.
Print Assumptions C33_keys_unique.

(** the driver lists a report once per failed check *)
Theorem C33_rejected_list : forall E len l start rejected, abm_rejected E len start l = Ret rejected ->
  (forall k, count_occ Nat.eq_dec rejected (start + k) =
     match nth_error l k with
     | Some ((v0, p0), (v1, p1)) => (match flp_decide E len (vec_add v0 v1) with Some true => 0 | _ => 1 end) + (if bytes_eqb p0 p1 then 0 else 1)
     | None => 0 end) /\ forall j, In j rejected -> start <= j < start + length l.
Proof. exact abm_rejected_spec. Qed.
Print Assumptions C33_rejected_list.

(** so a report failing both checks takes a debug build down *)
Theorem C33_both_checks_refuted : forall E len start l rejected k v0 p0 v1 p1 c n,
  dbg E = true -> abm_rejected E len start l = Ret rejected ->
  nth_error l k = Some ((v0, p0), (v1, p1)) -> flp_decide E len (vec_add v0 v1) = Some false -> p0 <> p1 ->
  abm_result E c rejected n = Panic PDebugAssert.
Proof. exact both_checks_fail. Qed.
Print Assumptions C33_both_checks_refuted.

(** one report with a wrong proof and one good report: the release build counts both, the debug build one *)
Example C33_example : match ex_bad_table rx_release, ex_bad_table rx with
  | Ret ts, Ret td => tables_eqb ts [[[1; 1]]]%Z && tables_eqb td [[[1; 0]]]%Z
  | _, _ => false end = true.
Proof. exact ex_abm_release. Qed.
(** a report failing both checks, debug build *)
Example C33_example_both :
  (let '(s0, s1) := ex_mixed_pair rx in
   match run_abm rx (cfg2 2 2 1) s0 s1 [[true; false; true]] 2 with Panic PDebugAssert => true | _ => false end) = true.
Proof. exact ex_abm_twice. Qed.

(** C34: for the first batch the table is the sum over the reports of the batch. *)
Theorem C34_first_batch : forall E c attrs a b c' v n, c_abm c = [] -> abm_validate E c attrs a b = Ret (c', v) ->
  exists vss agg, length vss = b - a /\ (forall k vs, nth_error vss k = Some vs -> attr_share E c attrs (a + k) vs) /\
  abm_result E c' [] n = Ret (c', agg) /\ is_table (c_len c) n vss agg.
Proof. exact batch_table_fresh. Qed.
Print Assumptions C34_first_batch.

(** in general it also covers every earlier report that is still in the state *)
Theorem C34_table : forall E c attrs a b c' v n, abm_validate E c attrs a b = Ret (c', v) ->
  exists vss agg, length vss = b - a /\ (forall k vs, nth_error vss k = Some vs -> attr_share E c attrs (a + k) vs) /\
  abm_result E c' [] n = Ret (c', agg) /\ is_table (c_len c) n (vss ++ map snd (without (seq a (b - a)) (c_abm c))) agg.
Proof. exact batch_table. Qed.
Print Assumptions C34_table.

(** so the table of the second batch is always the sum of the first table and the batch's own table *)
Theorem C34_refuted : forall E c attrs a b d c1 v1 c2 v2 n, c_abm c = [] ->
  abm_validate E c attrs a b = Ret (c1, v1) -> abm_validate E c1 attrs b d = Ret (c2, v2) ->
  exists agg1 agg2 aggB cB vB, abm_result E c1 [] n = Ret (c1, agg1) /\ abm_result E c2 [] n = Ret (c2, agg2) /\
    abm_validate E c attrs b d = Ret (cB, vB) /\ abm_result E cB [] n = Ret (cB, aggB) /\
    forall x j, x < n -> j < c_len c -> comp x j agg2 = fadd (comp x j agg1) (comp x j aggB).
Proof. exact two_batches. Qed.
Print Assumptions C34_refuted.

(** four honest reports in two batches of two: the second table also counts the first batch *)
Example C34_example :
  (let '(s0, s1) := ex_pair rx 4 in
   match run_abm rx (cfg2 2 2 1) s0 s1 [[true; false; true]; [false; false; true]] 4 with
   | Ret (_, _, ts) => tables_eqb ts [[[1; 1]; [0; 0]]; [[1; 2]; [0; 1]]]%Z
   | Panic _ => false end) = true.
Proof. exact ex_abm_accumulates. Qed.

(** C36: exactly the states of the indexed reports are consumed. *)
Theorem C36_consumes : forall E c sid peers a b c' agg rejected, pm_result E c sid peers a b = Ret (c', (agg, rejected)) ->
  let k := Nat.min (b - a) (length peers) in
  c' = set_pm c (without (seq a k) (c_pm c)) /\ incl (seq a k) (map fst (c_pm c)) /\
  exists outs, length outs <= k /\ p3_aggregate (c_len c) outs = Some agg /\
    rejected = ((Z.of_nat b - Z.of_nat a - Z.of_nat (length outs)) mod 2 ^ 64)%Z.
Proof. exact pm_result_shape. Qed.
Print Assumptions C36_consumes.

Theorem C36_accepted_plus_rejected : forall E c sid peers a b c' agg rejected, (Z.of_nat b < 2 ^ 64)%Z -> a <= b ->
  pm_result E c sid peers a b = Ret (c', (agg, rejected)) ->
  exists outs, p3_aggregate (c_len c) outs = Some agg /\ (Z.of_nat (length outs) + rejected = Z.of_nat (b - a))%Z.
Proof. exact pm_counts. Qed.
Print Assumptions C36_accepted_plus_rejected.

Theorem C36_twice : forall E c sid peers peers2 a b c' r, a < b -> peers <> [] -> peers2 <> [] ->
  pm_result E c sid peers a b = Ret (c', r) -> pm_result E c' sid peers2 a b = Panic PUnwrap.
Proof. exact pm_twice. Qed.
Print Assumptions C36_twice.

Theorem C36_not_validated : forall E c sid peers a b,
  hist_ok (c_len c) = true -> a < b -> peers <> [] -> ~ In a (map fst (c_pm c)) -> pm_result E c sid peers a b = Panic PUnwrap.
Proof. exact pm_unvalidated. Qed.
Print Assumptions C36_not_validated.

(** the driver's batch: both aggregators agree, the histogram is that of the accepted reports, the
    rejected ones are counted *)
Theorem C36_end_to_end : forall E cfg vk s0 s1 a rs,
  hist_ok (cfg_hist cfg) = true -> rs <> [] -> (Z.of_nat (a + length rs) < 2 ^ 64)%Z ->
  prio_pair E (cfg_hist cfg) vk s0 s1 a rs ->
  exists t0 t1 hist rej, pm_batch E cfg s0 s1 a (a + length rs) = Ret (t0, t1, (hist, rej)) /\
    length hist = cfg_hist cfg /\
    (forall j, j < cfg_hist cfg -> nth j hist 0%Z = fval (fsum (map (fun beta => nth j beta (of_Z 0)) (somes rs)))) /\
    rej = Z.of_nat (length (filter (fun o => match o with None => true | Some _ => false end) rs)).
Proof. exact pm_batch_run. Qed.
Print Assumptions C36_end_to_end.

(** reports 1..3 of four: bucket 1, rejected, bucket 1 *)
Example C36_example_pair : prio_pair rx 2 ex_vk (p3_server 0) (p3_server 1) 1 [Some [of_Z 0; of_Z 1]; None; Some [of_Z 0; of_Z 1]].
Proof. exact ex_p3_pair. Qed.
Example C36_example :
  match pm_batch rx (cfg2 2 2 1) (p3_server 0) (p3_server 1) 1 4 with
  | Ret (_, _, (h, r)) => list_eqb Z.eqb h [0; 2]%Z && (r =? 1)%Z
  | Panic _ => false
  end = true.
Proof. exact ex_pm. Qed.
