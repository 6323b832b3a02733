(** A concrete case for C57: the run of C52_example, and the same run with one forged report. *)
From Verif Require Import Base BaseFacts Field Util Env Prg Vidpf Merkle Collect Server Driver Modes SpecVidpf SpecLevel SpecWhh SpecMetrics SpecForge SpecModes SpecAbm
  VidpfFacts AbmForge AnyForge WhhFacts FlpFacts VidpfPropFacts RefEnv ToyEnv ExRun DriverPropFacts RefuteExamples WhhExamples MetricsExamples ModesExamples.

(** the keys of the attack: the last correction word replaced *)
Definition forge_keys (E : env) (k0 k1 : vidpf_key) (par : list bool) (b : bool) (beta : list fld) (Z : bytes) : option (vidpf_key * vidpf_key) :=
  match eval_loop E k0 (eval_init k0) [] par (length beta), eval_loop E k1 (eval_init k1) [] par (length beta) with
  | Ret (st0, _, _), Ret (st1, _, _) =>
      let X := if es_bit st0 then child E (es_seed st0) (negb b) else child E (es_seed st1) (negb b) in
      let D := seed_xor X Z in
      let f := last_word (length par) (forged_cw E b beta st0 st1 D) (forged_c E par b st0 st1 D) in Some (f k0, f k1)
  | _, _ => None
  end.
Definition a_shares : list (report_share * report_share) :=
  map (fun ch => match make_upload w_reports ch with Ret x => x | Panic _ => (RSPrio3 [] [] [], RSPrio3 [] [] []) end) (honest_choices [0; 1; 2]).
Definition a_forged : list (report_share * report_share) :=
  match a_shares with
  | (r0, r1) :: rest =>
      match forge_keys tx (key_of r0) (key_of r1) [true; false] true (one_hot 2 1) (ex_seed 9) with
      | Some (k0, k1) => (with_key k0 r0, with_key k1 r1) :: rest
      | None => []
      end
  | [] => []
  end.
Definition a_attrs : list (list bool) := [[true; false; true]; [false; false; true]].
Definition a_run_on (attrs : list (list bool)) (R : list (report_share * report_share)) : option (list (list (list bool * list fld))) :=
  let s0 := fst (handle tx (fst (handle tx (fst w_servers) (QReset ex_vk 2))) (QAddReportShares (map fst R))) in
  let s1 := fst (handle tx (fst (handle tx (snd w_servers) (QReset ex_vk 2))) (QAddReportShares (map snd R))) in
  match run_abm tx (cfg2 2 3 1) s0 s1 attrs 3 with Ret (_, _, ts) => Some ts | Panic _ => None end.
Definition a_run := a_run_on a_attrs.
Definition a_check : bool :=
  abm_eqb (a_run a_shares) [[([true; false; true], [1; 1]); ([false; false; true], [0; 1])]]%Z &&
  match a_run a_forged with
  | Some [[(a0, [x; y]); (a1, [u; v])]] =>
      path_eqb a0 [true; false; true] && path_eqb a1 [false; false; true] && (fval u =? 0)%Z && (fval v =? 1)%Z &&
      negb (fval x =? 1)%Z && negb (fval y =? 1)%Z
  | _ => false
  end.
Lemma a_example : a_check = true.
Proof. vm_cast_no_check (eq_refl true). Qed.

(** the keys of the second attack: a different last correction word for each aggregator *)
Definition any_keys (E : env) (k0 k1 : vidpf_key) (par : list bool) (b : bool) (beta u : list fld) : option (vidpf_key * vidpf_key) :=
  match eval_loop E k0 (eval_init k0) [] par (length beta), eval_loop E k1 (eval_init k1) [] par (length beta) with
  | Ret (st0, _, _), Ret (st1, _, _) =>
      let f i := last_word (length par) (any_cw E b beta st0 st1 (u ++ [of_Z 1]) i) (any_c E par b st0 st1 i) in Some (f false k0, f true k1)
  | _, _ => None
  end.
Definition any_forged : list (report_share * report_share) :=
  match a_shares with
  | (r0, r1) :: rest =>
      match any_keys tx (key_of r0) (key_of r1) [true; false] true (one_hot 2 1) [of_Z 1000; of_Z 7] with
      | Some (k0, k1) => (with_key k0 r0, with_key k1 r1) :: rest
      | None => []
      end
  | [] => []
  end.
Definition any_attrs : list (list bool) := [[true; false; true]; [true; false; false]; [false]].
Definition any_check : bool :=
  abm_eqb (a_run_on any_attrs a_shares) [[([true; false; true], [1; 1]); ([true; false; false], [0; 0]); ([false], [0; 1])]]%Z &&
  abm_eqb (a_run_on any_attrs any_forged) [[([true; false; true], [1001; 7]); ([true; false; false], [P - 1000; P - 6]); ([false], [0; 1])]]%Z.
Lemma any_example : any_check = true.
Proof. vm_cast_no_check (eq_refl true). Qed.
