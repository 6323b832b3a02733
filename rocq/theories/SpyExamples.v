(** Concrete cases for C66: three honest clients with the strings 101, 101 and 001. *)
From Verif Require Import Base BaseFacts Field Util Env Prg Vidpf Merkle Collect Server Driver SpecVidpf SpecTree SpecLevel SpecWhh SpecSpy
  RefEnv ToyEnv ExRun WhhExamples FloodExamples.

Definition sp_show (o : outcome (server * server * list result)) : option (list (list bool * list Z)) :=
  match o with Ret (_, _, l) => Some (map (fun r => (res_path r, map fval (res_value r))) l) | Panic _ => None end.
(** a run with threshold 2, then an attempt to single out client i *)
Definition sp_run : outcome (server * server * list result) := run_whh 20 tx (w_cfg 2) (fl_server 0 []) (fl_server 1 []) 3.
Definition sp_then (i : nat) (o : outcome (server * server * list result)) : outcome (server * server * list result) :=
  match o with Ret (s0, s1, _) => spy 20 tx (w_cfg 1) 3 i s0 s1 | Panic p => Panic p end.
Lemma sp_ok : sp_show sp_run = Some [([true; false; true], [1; 1; 2]%Z)] /\
  sp_show (sp_then 0 sp_run) = Some [([true; false; true], [0; 1; 1]%Z)] /\ sp_show (sp_then 1 sp_run) = Some [([true; false; true], [1; 0; 1]%Z)] /\
  sp_show (sp_then 2 sp_run) = Some [([false; false; true], [0; 1; 1]%Z)].
Proof. repeat split; apply zs_eqb_ok; vm_cast_no_check (eq_refl true). Qed.

(** what the driver sees at level k of the run with threshold 2 *)
Definition sp_seen (o : outcome ((server * server) * (list (list fld) * list bytes * list nat) * (list (list fld) * list bytes * list nat))) : option (list (list Z)) :=
  match o with Ret (_, (v0, _, _), (v1, _, _)) => Some (map (map fval) (seen 2 v0 v1)) | Panic _ => None end.
Definition sp_ask (o : outcome (server * server)) : option (list (list Z)) :=
  match o with Ret ss => sp_seen (ask_servers tx ss 1 [] false) | Panic _ => None end.
Definition sp_view (k : nat) : option (list (list Z)) := sp_ask (levels_done 20 tx (w_cfg 2) 3 k (fl_server 0 []) (fl_server 1 [])).
Definition zss_eqb : list (list Z) -> list (list Z) -> bool := list_eqb (list_eqb Z.eqb).
Definition sp_is (o : option (list (list Z))) (l : list (list Z)) : bool := match o with Some x => zss_eqb x l | None => false end.
Definition sp_check : bool := (sp_is (sp_view 0) [[0; 1; 1]; [1; 1; 2]] && sp_is (sp_view 1) [[1; 1; 2]; [0; 0; 0]] && sp_is (sp_view 2) [[0; 0; 0]; [1; 1; 2]])%Z.
Lemma sp_check_ok : sp_check = true.
Proof. vm_cast_no_check (eq_refl true). Qed.
