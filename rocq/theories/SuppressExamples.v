(** Concrete cases for C86. *)
From Verif Require Import Base BaseFacts Field Util Env Prg Vidpf Merkle Collect Server Driver Modes Sched System SpecVidpf SpecLevel SpecWhh SpecMetrics SpecModes SpecTamper SpecSuppress
  RefEnv ToyEnv ExRun DriverPropFacts WhhExamples ModesExamples TamperFacts SuppressFacts.
From Coq Require Import Lia.

(** the run of C53_example, in which the aggregator does not want the second upload; its output share of it is either one *)
Definition su_spoil (sh : bytes) : bytes := map (N.add 5) sh.
Definition su_out (who : bool) (i : nat) : list fld := map of_N (if who then [1; 0] else [0; 0])%N.
Definition su_run (full who : bool) : outcome (server * server * list (list Z * Z)) :=
  tampered rx who (suppress full su_spoil (Nat.eqb 1) (su_out who)) (main_pm_p 20 rx p_shard (cfg2 2 3 1) p_clients ex_vk p_choices) (server_start 0 None 2) (server_start 1 None 2).
Lemma su_choice who i ch : nth_error p_choices i = Some ch -> (1 =? i) = true -> suppressible_choice rx p_shard 2 ex_vk p_clients who su_spoil (su_out who i) ch.
Proof.
  intros Hc Hi. apply Nat.eqb_eq in Hi. subst i. injection Hc as <-. split; [reflexivity|].
  exists {| pc_nonce := [1%N]; pc_bucket := 0; pc_rand := [] |}, [], [1; 0]%N, [0; 0]%N. split; [reflexivity|]. split; [reflexivity|].
  exists [1%N], [], [1; 0]%N, [1%N], [], [0; 0]%N, [1; 0]%N, [1; 0]%N, [0; 0]%N, [0; 0]%N, []. do 4 (split; [reflexivity|]).
  split; [unfold rx; reflexivity|]. split; [destruct who; reflexivity|].
  destruct who; (split; [reflexivity|]; split; [reflexivity|]; split; [reflexivity|]; left; vm_compute; reflexivity).
Qed.
Lemma su_example who : (exists t0 t1, su_run true who = Ret (t0, t1, [([0; 1], 2); ([0; 1], 0)]%Z)) /\ su_run false who = Panic PAssert.
Proof.
  destruct p_example as (Hs & Hg & _). split.
  - destruct (votes_suppressed rx p_shard 2 ex_vk p_clients p_choices who su_spoil (Nat.eqb 1) (su_out who) 20 (cfg2 2 3 1) (server_start 0 None 2) (server_start 1 None 2) Hs Hg (su_choice who) eq_refl eq_refl
      ltac:(discriminate) ltac:(cbn; lia) ltac:(cbn; lia) ltac:(cbn; lia) ltac:(cbn; lia) eq_refl eq_refl eq_refl eq_refl) as (t0 & t1 & H). exists t0, t1. exact H.
  - exact (shares_alone rx p_shard 2 ex_vk p_clients p_choices who su_spoil (Nat.eqb 1) (su_out who) 20 (cfg2 2 3 1) (server_start 0 None 2) (server_start 1 None 2) 1 Hs Hg (su_choice who) eq_refl eq_refl
      ltac:(discriminate) ltac:(cbn; lia) ltac:(cbn; lia) ltac:(cbn; lia) ltac:(cbn; lia) eq_refl eq_refl eq_refl eq_refl ltac:(cbn; lia) eq_refl).
Qed.
Succeed Definition by_computation := (eq_refl true <:
  forallb (fun who => match su_run true who with Ret (_, _, hs) => list_eqb (fun a b => list_eqb Z.eqb (fst a) (fst b) && (snd a =? snd b)%Z) hs [([0; 1], 2); ([0; 1], 0)]%Z | Panic _ => false end &&
                      match su_run false who with Ret _ => false | Panic e => match e with PAssert => true | _ => false end end) [true; false] = true).
