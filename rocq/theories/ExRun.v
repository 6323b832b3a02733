(** Concrete clients and aggregators for the examples, over the cheap environment of ToyEnv. *)
From Verif Require Import Base Field Util Env Prg Vidpf Merkle Collect Server Driver RefCrypto RefEnv ToyEnv VidpfPropFacts.

Definition rx : env := toy_env true true.
(** the same without debug assertions *)
Definition rx_release : env := toy_env false true.

Definition ex_client (i : nat) (alpha : list bool) (bucket : nat) : client :=
  {| cl_nonce := ex_seed (2 * i); cl_bucket := bucket; cl_alpha := alpha; cl_seed0 := ex_seed (3 * i + 1);
     cl_seed1 := ex_seed (5 * i + 2); cl_prove_rand := [of_N 7]; cl_proof_rand := fun j => of_N (N.of_nat (j + i)) |}.

(** five clients, three-bit strings, two buckets *)
Definition ex_clients : list client :=
  [ex_client 0 [true; false; true] 1; ex_client 1 [true; false; true] 0; ex_client 2 [false; false; true] 1;
   ex_client 3 [true; false; true] 1; ex_client 4 [false; false; false] 0].
Definition ex_reports (E : env) : list plaintext_report :=
  match mapM (gen_report E 2) ex_clients with Ret l => l | Panic _ => [] end.
Definition ex_vk : bytes := ex_seed 77.
Definition ex_side (id : Z) (r : report_share * report_share) : report_share := if (id =? 0)%Z then fst r else snd r.
(** an aggregator that has received the reports and built the root *)
Definition ex_prefix (E : env) (id : Z) (n : nat) : list request :=
  [QReset ex_vk 2; QAddReportShares (map (fun r => ex_side id (to_shares r)) (firstn n (ex_reports E))); QTreeInit].
Definition ex_server (E : env) (id : Z) (n : nat) (qs : list request) : server :=
  fst (handle_all E (server_start id (Some 3) 2) (ex_prefix E id n ++ qs)).
Definition all_ok {A} (l : list (outcome A)) : bool := forallb is_ret l.

Definition ex_run (E : env) (id : Z) (n : nat) (qs : list request) : server * list (outcome response) :=
  handle_all E (server_start id (Some 3) 2) (ex_prefix E id n ++ qs).
Definition ex_paths_of (s : server) : list (list bool) := map tn_path (c_frontier (s_coll s)).
Definition ex_flags (s : server) : list bool := map fst (c_reports (s_coll s)).
Definition paths_eqb (l1 l2 : list (list bool)) : bool := list_eqb path_eqb l1 l2.
