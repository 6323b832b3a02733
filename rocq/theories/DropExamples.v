(** Concrete cases for C85. *)
From Verif Require Import Base BaseFacts Field Util Env Prg Vidpf Merkle Collect Server Driver Modes Sched System SpecVidpf SpecLevel SpecWhh SpecMetrics SpecModes SpecTamper SpecDrop
  RefEnv ToyEnv ExRun DriverPropFacts WhhExamples ModesExamples HistExamples TamperFacts TamperExamples DropFacts.
From Coq Require Import Lia Permutation.

Definition dr_spoil (h : bytes) : bytes := match h with [] => [0%N] | x :: h' => N.lxor x 1 :: h' end.
Lemma dr_spoil_ok h : dr_spoil h <> h.
Proof. destruct h as [|x h]; [discriminate|]. cbn [dr_spoil]. intros H. injection H as H. assert (H2 : N.lxor (N.lxor x 1) x = N.lxor x x) by (rewrite H; reflexivity). rewrite N.lxor_nilpotent, (N.lxor_comm x 1), N.lxor_assoc, N.lxor_nilpotent, N.lxor_0_r in H2. discriminate. Qed.
(** the run of C52_example, in which the aggregator does not want the second upload; the fifth one is invalid *)
Definition dr_run (E : env) (who : bool) (D : nat -> bool) : outcome (server * server * list (list (list bool * list fld))) :=
  tampered E who (spoil_proofs dr_spoil D) (main_abm_p 20 E (cfg2 2 2 1) w_clients ex_vk w_choices [1; 2; 1] (@rev (list bool))) (fst w_servers) (snd w_servers).
Lemma dr_any who D : exists t0 t1 attrs, dr_run tx who D =
    (if dbg tx && doubly D w_choices then Panic PDebugAssert else
     Ret (t0, t1, map (fun e => tally_table 2 attrs (in_table_without (dbg tx) D w_clients (firstn e w_choices))) (batch_ends (length w_choices) 2))) /\
    NoDup attrs /\ forall a, In a attrs <-> exists i cl, In i [1; 2; 1] /\ nth_error w_clients i = Some cl /\ a = cl_alpha cl.
Proof.
  destruct m_example as (H1 & H2 & H3 & H4 & H5 & _). unfold dr_run.
  apply (main_dropped tx who dr_spoil D 2 3 ex_vk w_clients w_reports w_choices [1; 2; 1] (@rev (list bool)) 20 (cfg2 2 2 1) (fst w_servers) (snd w_servers) dr_spoil_ok (toy_env_ok true true) ltac:(lia) H1 H2 H3 H4 eq_refl
    ltac:(cbn; lia) ltac:(cbn; lia) eq_refl ltac:(discriminate) ltac:(cbn; lia)); try apply w_running; [|exact H5].
  intros s [<-|[<-|[<-|[]]]]; cbn; lia.
Qed.
Lemma dr_example who :
  (exists t0 t1 attrs, dr_run tx who (Nat.eqb 1) = Ret (t0, t1, map (tally_table 2 attrs)
     [[([true; false; true], 1)]; [([true; false; true], 1); ([false; false; true], 1); ([true; false; true], 1)]; [([true; false; true], 1); ([false; false; true], 1); ([true; false; true], 1)]]) /\
     In [true; false; true] attrs) /\
  dr_run tx who (Nat.eqb 4) = Panic PDebugAssert.
Proof.
  split.
  - destruct (dr_any who (Nat.eqb 1)) as (t0 & t1 & attrs & H & _ & Hin). exists t0, t1, attrs. split; [exact H|]. apply Hin. exists 1. eexists. split; [left; reflexivity|]. split; reflexivity.
  - destruct (dr_any who (Nat.eqb 4)) as (t0 & t1 & attrs & H & _). exact H.
Qed.
Succeed Definition by_computation := (eq_refl true <:
  abm_eqb (tables_of (dr_run tx true (Nat.eqb 1))) [[([true; false; true], [0; 1]); ([false; false; true], [0; 0])];
                                                    [([true; false; true], [0; 2]); ([false; false; true], [0; 1])];
                                                    [([true; false; true], [0; 2]); ([false; false; true], [0; 1])]]%Z &&
  abm_eqb (tables_of (dr_run (toy_env false true) true (Nat.eqb 1)))
                                                   [[([true; false; true], [1; 1]); ([false; false; true], [0; 0])];
                                                    [([true; false; true], [1; 2]); ([false; false; true], [0; 1])];
                                                    [([true; false; true], [2; 2]); ([false; false; true], [0; 1])]]%Z = true).
