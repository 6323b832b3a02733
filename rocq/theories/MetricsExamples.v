(** Concrete cases for the metrics properties. *)
From Verif Require Import Base Field Util Env Prg Vidpf Merkle Collect Server Driver SpecCollect SpecServer SpecDriver SpecMetrics
  RefEnv ToyEnv VidpfPropFacts ExRun DriverPropFacts.

(** two aggregators holding the first n reports of the example clients *)
Definition ex_pair (E : env) (n : nat) : server * server :=
  let go id := fst (handle_all E (server_start id (Some 3) 2)
    [QReset ex_vk 2; QAddReportShares (map (fun r => ex_side id (to_shares r)) (firstn n (ex_reports E)))]) in (go 0%Z, go 1%Z).
Definition tables_eqb (a : list (list (list bool * list fld))) (b : list (list (list Z))) : bool :=
  list_eqb (list_eqb (list_eqb Z.eqb)) (map (map (fun x => map fval (snd x))) a) b.
Definition p3_reports : list (report_share * report_share) :=
  map (fun ab => (RSPrio3 [1%N] [] (fst ab), RSPrio3 [1%N] [] (snd ab)))
      [([1; 0], [0; 0]); ([0; 0], [0; 1]); ([1; 1], [0; 0]); ([0; 1], [0; 0])]%N.
Definition p3_server (id : Z) : server :=
  fst (handle_all rx (server_start id None 2) [QReset ex_vk 2; QAddReportShares (map (ex_side id) p3_reports)]).

(** two batches of two: the second table contains the first *)
Lemma ex_abm_accumulates :
  (let '(s0, s1) := ex_pair rx 4 in
   match run_abm rx (cfg2 2 2 1) s0 s1 [[true; false; true]; [false; false; true]] 4 with
   | Ret (_, _, ts) => tables_eqb ts [[[1; 1]; [0; 0]]; [[1; 2]; [0; 1]]]%Z
   | Panic _ => false end) = true.
Proof. vm_cast_no_check (eq_refl true). Qed.
(** a report with a wrong FLP proof: in a release build it is counted although it is in the rejected list *)
Definition ex_bad_pair (E : env) : server * server :=
  let go id := fst (handle_all E (server_start id (Some 3) 2)
    [QReset ex_vk 2; QAddReportShares (match mapM (make_upload (ex_reports E)) [bad_flp 0; bad_vidpf 1] with Ret ups => map (ex_side id) ups | Panic _ => [] end)]) in (go 0%Z, go 1%Z).
Definition ex_bad_table (E : env) : outcome (list (list (list bool * list fld))) :=
  let '(s0, s1) := ex_bad_pair E in
  let! '(_, _, ts) := run_abm E (cfg2 2 2 1) s0 s1 [[true; false; true]] 2 in Ret ts.
Lemma ex_abm_release : match ex_bad_table rx_release, ex_bad_table rx with
  | Ret ts, Ret td => tables_eqb ts [[[1; 1]]]%Z && tables_eqb td [[[1; 0]]]%Z
  | _, _ => false end = true.
Proof. vm_cast_no_check (eq_refl true). Qed.
(** shares of two different clients paired up fail both checks: the debug build panics *)
Definition ex_mixed_pair (E : env) : server * server :=
  (fst (handle_all E (server_start 0 (Some 3) 2) [QReset ex_vk 2; QAddReportShares (map (fun r => fst (to_shares r)) (firstn 2 (ex_reports E)))]),
   fst (handle_all E (server_start 1 (Some 3) 2) [QReset ex_vk 2; QAddReportShares (map (fun r => snd (to_shares r)) (firstn 2 (skipn 1 (ex_reports E))))])).
Lemma ex_abm_twice :
  (let '(s0, s1) := ex_mixed_pair rx in
   match run_abm rx (cfg2 2 2 1) s0 s1 [[true; false; true]] 2 with Panic PDebugAssert => true | _ => false end) = true.
Proof. vm_cast_no_check (eq_refl true). Qed.
Lemma ex_pm :
  match pm_batch rx (cfg2 2 2 1) (p3_server 0) (p3_server 1) 1 4 with
  | Ret (_, _, (h, r)) => list_eqb Z.eqb h [0; 2]%Z && (r =? 1)%Z
  | Panic _ => false
  end = true.
Proof. vm_cast_no_check (eq_refl true). Qed.
Lemma ex_p3_pair : prio_pair rx 2 ex_vk (p3_server 0) (p3_server 1) 1 [Some [of_Z 0; of_Z 1]; None; Some [of_Z 0; of_Z 1]].
Proof.
  unfold prio_pair. do 8 (split; [reflexivity|]). intros k res Hk.
  assert (Hs : forall i0 i1 m o0 o1 beta, p3_msg rx 2 i0 i1 = Some m -> length i0 = 2 -> length i1 = 2 ->
     o0 = map of_N i0 -> o1 = map of_N i1 -> length beta = 2 -> vec_add o0 o1 = beta ->
     p3_run rx 2 ex_vk (RSPrio3 [1%N] [] i0) (RSPrio3 [1%N] [] i1) (Some beta)).
  { intros i0 i1 m o0 o1 beta Hm H0 H1 -> -> Hb <-. exists [1%N], [], i0, [1%N], [], i1, i0, i0, i1, i1. split; [reflexivity|]. split; [reflexivity|].
    cbn [p3_prep_init p3_decode_share rx toy_env]. unfold ref_p3_init, ref_p3_dec. rewrite H0, H1. do 4 (split; [reflexivity|]).
    exists m, (map of_N i0), (map of_N i1). split; [exact Hm|]. do 2 (split; [reflexivity|]). rewrite !map_length. do 3 (split; [assumption|]).
    intros j Hj. destruct i0 as [|a [|b [|]]]; try discriminate. destruct i1 as [|c [|d [|]]]; try discriminate. destruct j as [|[|j]]; [reflexivity|reflexivity|lia]. }
  destruct k as [|[|[|k]]]; cbn [nth_error] in Hk; [| | |destruct k; discriminate]; injection Hk as <-; eexists true, _, true, _; (split; [reflexivity|]); (split; [reflexivity|]).
  - eapply Hs; reflexivity.
  - exists [1%N], [], [1; 1]%N, [1%N], [], [0; 0]%N, [1; 1]%N, [1; 1]%N, [0; 0]%N, [0; 0]%N. do 6 (split; [reflexivity|]). left. reflexivity.
  - eapply Hs; reflexivity.
Qed.
