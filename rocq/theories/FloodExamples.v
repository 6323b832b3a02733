(** Concrete cases for C63: the frontier sizes of the run of C22_example, and one report that keeps all
    strings starting with 1 alive. *)
From Verif Require Import Base BaseFacts Field Util Env Prg Vidpf Merkle Collect Server Driver SpecVidpf SpecTree SpecLevel SpecWhh SpecForge SpecOne SpecFlood
  WhhFacts FlpFacts VidpfPropFacts RefEnv ToyEnv ExRun DriverPropFacts RefuteExamples WhhExamples ForgeExamples FloodFacts FloodRun.

(** three honest clients with the strings 101, 101 and 001 *)
Definition fl_server (id : Z) (extra : list report_share) : server :=
  fst (handle_all tx (server_start id (Some 3) 2) [QReset ex_vk 2; QAddReportShares (map (fun r => ex_side id (to_shares r)) w_reports ++ extra)]).
(** the frontiers after k levels *)
Definition fl_frontiers (thr : Z) (k : nat) : option (list (list bool) * list (list bool)) :=
  match (let! '(s0, s1) := call2_done tx (fl_server 0 []) (fl_server 1 []) QTreeInit QTreeInit in levels_loop 20 tx (w_cfg thr) s0 s1 3 true k) with
  | Ret (s0, s1) => Some (map tn_path (c_frontier (s_coll s0)), map tn_path (c_frontier (s_coll s1)))
  | Panic _ => None
  end.
Definition paths_eqb : list (list bool) -> list (list bool) -> bool := list_eqb path_eqb.
Definition fl_is (o : option (list (list bool) * list (list bool))) (l : list (list bool)) : bool :=
  match o with Some (a, b) => paths_eqb a l && paths_eqb b l | None => false end.

(** a fourth client with equal seeds, whose report has counter 100 at every string that starts with 1 *)
Definition fl_seed : bytes := cl_seed0 f_client.
Definition fl_proof : list fld := match flp_prove tx 2 f_beta (cl_prove_rand f_client) (seed_joint tx 2 fl_seed (cl_nonce f_client)) with Some p => p | None => [] end.
Definition fl_share (i : bool) : report_share :=
  RSMastic (cl_nonce f_client) (flood_key 3 f_beta true 100 fl_seed i) (if i then map (fun _ => of_Z 0) fl_proof else fl_proof) (seed_parts tx fl_seed (cl_nonce f_client)).
Definition fl_result (thr : Z) : option (list (list bool * list Z)) :=
  match run_whh 20 tx (w_cfg thr) (fl_server 0 [fl_share false]) (fl_server 1 [fl_share true]) 4 with
  | Ret (_, _, l) => Some (map (fun r => (res_path r, map fval (res_value r))) l)
  | Panic _ => None
  end.
Definition fl_quarter : Z := fval (halved 2 (of_Z 1)).
Definition fl_check : bool :=
  fl_is (fl_frontiers 1 1) [[false]; [true]] && fl_is (fl_frontiers 1 2) [[false; false]; [true; false]] && fl_is (fl_frontiers 2 1) [[true]] && fl_is (fl_frontiers 2 2) [[true; false]] &&
  match flp_prove tx 2 f_beta (cl_prove_rand f_client) (seed_joint tx 2 fl_seed (cl_nonce f_client)) with Some _ => true | None => false end &&
  match verdict_of tx 2 ex_vk (fl_share false) (fl_share true) with Some v => v | None => false end.
Lemma fl_check_ok : fl_check = true.
Proof. vm_cast_no_check (eq_refl true). Qed.
Lemma fl_result_ok : f_result 3 (f_k0, f_k1) = Some [] /\
  fl_result 3 = Some [([true; false; false], [0; fl_quarter; 100]); ([true; false; true], [1; 1 + fl_quarter; 102]); ([true; true; false], [0; fl_quarter; 100]); ([true; true; true], [0; fl_quarter; 100])]%Z.
Proof. split; [apply f_run_ok|]. apply zs_eqb_ok. vm_cast_no_check (eq_refl true). Qed.
