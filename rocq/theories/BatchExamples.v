(** Concrete cases for C71: the uploads of WhhExamples (five uploads, two of them spoilt). *)
From Verif Require Import Base Field Util Env Prg Vidpf Merkle Collect Server Driver Modes SpecBatch RefEnv ToyEnv ExRun DriverPropFacts WhhExamples.

Inductive ending := EndRet | EndFuel | EndPanic (k : panic_kind).
Definition ending_of {A} (o : outcome A) : ending := match o with Ret _ => EndRet | Panic PFuel => EndFuel | Panic k => EndPanic k end.
(** batch sizes for uploads and for queries *)
Definition b_cfg (a q : nat) : config := {| cfg_bits := Some 3; cfg_hist := 2; cfg_add_batch := a; cfg_query_batch := q; cfg_thr := 2 |}.
Definition b_whh (E : env) (a q fuel : nat) : ending := ending_of (main_whh fuel E (b_cfg a q) w_clients ex_vk w_choices (fst w_servers) (snd w_servers)).
Definition b_abm (E : env) (a q fuel : nat) : ending := ending_of (main_abm fuel E (b_cfg a q) w_clients ex_vk w_choices [1; 2] (fun l => l) (fst w_servers) (snd w_servers)).
Lemma b_ok :
  (* batches of 2: five uploads, so 7 rounds are enough; 1 is not *)
  b_whh tx 1 2 7 = EndRet /\ b_abm tx 1 2 7 = EndRet /\ b_whh tx 1 2 1 = EndFuel /\
  (* batches of 0 *)
  b_whh rx_release 1 0 40 = EndFuel /\ b_whh tx 1 0 40 = EndPanic PDebugAssert /\ b_abm tx 1 0 40 = EndPanic PArith /\ b_whh tx 0 2 40 = EndFuel /\ b_abm tx 0 2 40 = EndFuel.
Proof.
  repeat match goal with |- _ /\ _ => split end.
  1, 2: vm_cast_no_check (eq_refl EndRet).
  1, 2: vm_cast_no_check (eq_refl EndFuel).
  1: vm_cast_no_check (eq_refl (EndPanic PDebugAssert)).
  1: vm_cast_no_check (eq_refl (EndPanic PArith)).
  all: vm_cast_no_check (eq_refl EndFuel).
Qed.
