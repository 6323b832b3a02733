(** Concrete cases for the properties of PropForge. *)
From Verif Require Import Base BaseFacts Field Util Env Prg Vidpf Merkle Collect Server Driver SpecVidpf SpecTree SpecCollect SpecServer SpecLevel SpecWhh SpecSearch SpecForge ForgeFacts ForgeProp ForgeRun
  RefEnv ToyEnv ExRun DriverPropFacts RefuteExamples WhhExamples.

(** a fourth client with the string 110 and weights (0, 1); the other three have 101, 101 and 001 *)
Definition f_alpha : list bool := [true; true; false].
Definition f_beta : list fld := one_hot 2 1.
Definition f_client : client := ex_client 3 f_alpha 1.
Definition f_shares : report_share * report_share := match gen_report tx 2 f_client with Ret r => to_shares r | Panic _ => (RSPrio3 [] [] [], RSPrio3 [] [] []) end.
Definition first_key (o : outcome (vidpf_key * vidpf_key)) : vidpf_key := match o with Ret (a, _) => a | Panic _ => no_key end.
Definition second_key (o : outcome (vidpf_key * vidpf_key)) : vidpf_key := match o with Ret (_, b) => b | Panic _ => no_key end.
Lemma f_gen_ok : is_ret (gen tx (cl_seed0 f_client) (cl_seed1 f_client) f_alpha f_beta) = true.
Proof. vm_cast_no_check (eq_refl true). Qed.
Lemma keys_split seed0 seed1 alpha beta : length seed0 = 16 -> length seed1 = 16 -> is_ret (gen tx seed0 seed1 alpha beta) = true ->
  honest_keys tx (first_key (gen tx seed0 seed1 alpha beta)) (second_key (gen tx seed0 seed1 alpha beta)) alpha beta.
Proof. intros A B H. exists seed0, seed1. split; [exact A|]. split; [exact B|]. destruct (gen tx seed0 seed1 alpha beta) as [[a b]|]; [reflexivity|discriminate]. Qed.
Definition f_pair : {k0 & {k1 | honest_keys tx k0 k1 f_alpha f_beta}} :=
  existT _ (first_key (gen tx (cl_seed0 f_client) (cl_seed1 f_client) f_alpha f_beta))
    (exist _ (second_key (gen tx (cl_seed0 f_client) (cl_seed1 f_client) f_alpha f_beta))
       (keys_split (cl_seed0 f_client) (cl_seed1 f_client) f_alpha f_beta eq_refl eq_refl f_gen_ok)).
Definition f_k0 : vidpf_key := projT1 f_pair.
Definition f_k1 : vidpf_key := proj1_sig (projT2 f_pair).
Definition f_honest : honest_keys tx f_k0 f_k1 f_alpha f_beta := proj2_sig (projT2 f_pair).

(** the forged keys for given target values *)
Definition f_keys (t : nat -> list fld) : vidpf_key * vidpf_key :=
  (add_words (deltas tx f_k0 f_alpha f_beta t) f_k0, add_words (deltas tx f_k0 f_alpha f_beta t) f_k1).
Definition f_value (t : nat -> list fld) (p : list bool) : list Z := map fval (value_at tx 2 (fst (f_keys t)) (snd (f_keys t)) p).
Definition f_counters : nat -> list fld := counters f_beta (fun l => of_Z (Z.of_nat (100 * l))).
Definition f_last : nat -> list fld := last_value 3 f_beta [of_Z 7; of_Z 9; of_Z 1].
Definition zl_eqb : list (list Z) -> list (list Z) -> bool := list_eqb (list_eqb Z.eqb).
Lemma zl_eqb_ok a b : zl_eqb a b = true -> a = b.
Proof. apply list_eqb_ok. apply list_eqb_ok. intros x y. apply Z.eqb_eq. Qed.
Lemma f_counters_ok : honest_keys tx f_k0 f_k1 f_alpha f_beta /\
  map (f_value f_counters) [[true]; [true; true]; [true; true; false]; [true; false]; [true; true; true]] = [[0; 1; 1]; [0; 1; 200]; [0; 1; 300]; [0; 0; 0]; [0; 0; 0]]%Z.
Proof. split; [exact f_honest|]. apply zl_eqb_ok. vm_cast_no_check (eq_refl true). Qed.
Lemma f_last_ok : honest_keys tx f_k0 f_k1 f_alpha f_beta /\
  map (f_value f_last) [[true]; [true; true]; [true; true; false]; [true; true; true]] = [[0; 1; 1]; [0; 1; 1]; [7; 9; 1]; [0; 0; 0]]%Z.
Proof. split; [exact f_honest|]. apply zl_eqb_ok. vm_cast_no_check (eq_refl true). Qed.

(** complete runs of the three honest clients and the fourth with the given keys *)
Definition f_server (id : Z) (k : vidpf_key * vidpf_key) : server :=
  fst (handle_all tx (server_start id (Some 3) 2)
    [QReset ex_vk 2; QAddReportShares (map (fun r => ex_side id (to_shares r)) w_reports ++ [ex_side id (with_key (fst k) (fst f_shares), with_key (snd k) (snd f_shares))])]).
Definition f_result (thr : Z) (k : vidpf_key * vidpf_key) : option (list (list bool * list Z)) :=
  match run_whh 20 tx (w_cfg thr) (f_server 0 k) (f_server 1 k) 4 with
  | Ret (_, _, l) => Some (map (fun r => (res_path r, map fval (res_value r))) l)
  | Panic _ => None
  end.
Definition f_run : nat -> list fld := run_values 3 f_beta [of_Z 7; of_Z 9] 100.
Lemma f_run_ok : f_result 1 (f_k0, f_k1) = Some [([false; false; true], [0; 1; 1]); ([true; false; true], [1; 1; 2]); ([true; true; false], [0; 1; 1])]%Z /\
  f_result 1 (f_keys f_counters) = Some [([false; false; true], [0; 1; 1]); ([true; false; true], [1; 1; 2]); ([true; true; false], [0; 1; 300])]%Z /\
  f_result 1 (f_keys f_last) = Some [([false; false; true], [0; 1; 1]); ([true; false; true], [1; 1; 2]); ([true; true; false], [7; 9; 1])]%Z /\
  f_result 3 (f_k0, f_k1) = Some [] /\
  f_result 3 (f_keys f_run) = Some [([true; true; false], [7; 9; 100])]%Z.
Proof. do 4 (split; [apply zs_eqb_ok; vm_cast_no_check (eq_refl true)|]). apply zs_eqb_ok. vm_cast_no_check (eq_refl true). Qed.
