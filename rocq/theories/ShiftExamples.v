(** Concrete case for C70: three honest clients with the strings 101, 101 and 001, threshold 2. *)
From Verif Require Import Base BaseFacts Field Util Env Prg Vidpf Merkle Collect Server Driver SpecVidpf SpecTree SpecLevel SpecWhh SpecShift
  RefEnv ToyEnv ExRun WhhExamples FloodExamples.

Definition sh_values (o : outcome (server * server * list result)) : option (list (list bool * list Z)) :=
  match o with Ret (_, _, l) => Some (map (fun r => (res_path r, map fval (res_value r))) l) | Panic _ => None end.
(** the strings the first aggregator holds at the end *)
Definition sh_known (o : outcome (server * server * list result)) : list (list bool) :=
  match o with Ret (s0, _, _) => map tn_path (c_frontier (s_coll s0)) | Panic _ => [] end.
Definition sh_run (d : Z) : outcome (server * server * list result) := run_shifted d 20 tx (w_cfg 2) (fl_server 0 []) (fl_server 1 []) 3.
Lemma sh_ok : sh_values (sh_run 0) = Some [([true; false; true], [1; 1; 2])]%Z /\
  sh_values (sh_run 1) = Some [([false; false; true], [0; 1; 1]); ([true; false; true], [1; 1; 2])]%Z /\
  paths_eqb (sh_known (sh_run 1)) [[false; false; true]; [true; false; true]] = true.
Proof. split; [apply zs_eqb_ok; vm_cast_no_check (eq_refl true)|split; [apply zs_eqb_ok; vm_cast_no_check (eq_refl true)|vm_cast_no_check (eq_refl true)]]. Qed.
