(** Concrete case for C84. *)
From Verif Require Import Base BaseFacts Field Util Env Prg Vidpf Merkle Collect Server Driver Sched System SpecVidpf SpecServer SpecLevel SpecWhh SpecTamper SpecFinal
  RefEnv ToyEnv ExRun DriverPropFacts WhhExamples FinalFacts.
From Coq Require Import Lia.

(** 1000 votes more for 001, all in bucket 0; the total of 101 is lowered by 3 *)
Definition fi_extra (p : list bool) (j : nat) : Z :=
  if path_eqb p [false; false; true] then (if j =? 1 then 0%Z else 1000%Z) else if (path_eqb p [true; false; true] && (j =? 2))%bool then (-3)%Z else 0%Z.
Lemma fi_padded : map (padded_result (ballots w_clients w_choices) 2 fi_extra)
    (filter (fun p => popular 1 (ballots w_clients w_choices) p && negb ((tally (ballots w_clients w_choices) p + fi_extra p 2) mod P =? 0)%Z) (all_paths 3)) =
  [{| res_path := [false; false; true]; res_value := map of_Z [1000; 1; 1001]%Z |}].
Proof. vm_compute. reflexivity. Qed.
Lemma fi_results who : exists t0 t1,
  tampered tx who (add_to_results (fun p j => of_Z (fi_extra p j))) (main_whh_p 20 tx (cfg2 2 3 1) w_clients ex_vk w_choices) (fst w_servers) (snd w_servers) =
  Ret (t0, t1, [{| res_path := [false; false; true]; res_value := map of_Z [1000; 1; 1001]%Z |}]).
Proof.
  assert (Hp : forall l, 1 <= l -> l + 1 < 3 -> exists p, length p = l /\ popular (threshold (cfg2 2 3 1)) (ballots w_clients w_choices) p = true).
  { intros l H1 H2. exists [true]. split; [cbn; lia|reflexivity]. }
  destruct (padded_results tx who fi_extra 2 3 ex_vk w_clients w_reports w_choices 20 (cfg2 2 3 1) (fst w_servers) (snd w_servers) (toy_env_ok true true) ltac:(lia) w_reports_ret w_clients_good w_choices_good
    eq_refl eq_refl ltac:(cbn; lia) ltac:(cbn; lia) eq_refl ltac:(discriminate) ltac:(cbn; lia) eq_refl ltac:(repeat split) ltac:(exists 1%Z; split; [discriminate|repeat split]) (fun _ => eq_refl) ltac:(discriminate) Hp) as (t0 & t1 & H).
  exists t0, t1. exact (eq_trans H (f_equal (fun l => Ret (t0, t1, l)) fi_padded)).
Qed.
