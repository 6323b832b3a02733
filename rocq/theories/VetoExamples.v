(** Concrete cases for C87. *)
From Verif Require Import Base BaseFacts Field Util Env Prg Vidpf Merkle Collect Server Driver Sched System SpecVidpf SpecCollect SpecLevel SpecWhh SpecTamper SpecVeto
  RefEnv ToyEnv ExRun DriverPropFacts RefuteExamples WhhFacts3 WhhMain WhhExamples HistExamples SchedExamples TamperFacts VetoFacts.
From Coq Require Import Lia Bool.

(** the run of C22_example, in which the aggregator has the first upload rejected and the fifth one, whose FLP proof is wrong, accepted:
    it adds to its shares of their verifiers, whose last element has to add up to 1 *)
Definition ve_lie (i : nat) (v : list fld) : list fld :=
  match i with
  | 0 => firstn 2 v ++ [fadd (nth 2 v fzero) (of_Z 1)]
  | 4 => firstn 2 v ++ [fsub (nth 2 v fzero) (of_Z 1337)]
  | _ => v
  end.
Definition ve_ok (i : nat) : bool := negb (i =? 0).
Definition ve_run (who : bool) : outcome (server * server * list result) :=
  tampered tx who (lie_verifiers ve_lie) (main_whh_p 20 tx (w_cfg 2) w_clients ex_vk w_choices) (fst w_servers) (snd w_servers).
Definition ve_print (o : outcome (server * server * list result)) : option (list (list bool * list Z)) :=
  match o with Ret (_, _, l) => Some (map (fun r => (res_path r, map fval (res_value r))) l) | Panic _ => None end.
Definition ve_verdict (who : bool) (i : nat) (r0 r1 : report_share) : option bool :=
  match verifier_share tx true 2 ex_vk r0, verifier_share tx false 2 ex_vk r1 with
  | Some v0, Some v1 => flp_decide tx 2 (add_shares (if who then ve_lie i v0 else v0) (if who then v1 else ve_lie i v1))
  | _, _ => None
  end.
Definition ve_check (who : bool) (i : nat) : bool :=
  match nth_error w_choices i with
  | Some ch => match make_upload w_reports ch with Ret (r0, r1) => match ve_verdict who i r0 r1 with Some b => Bool.eqb b (ve_ok i) | None => false end | Panic _ => false end
  | None => false
  end.
Lemma ve_check_ok who i ch r0 r1 : ve_check who i = true -> nth_error w_choices i = Some ch -> make_upload w_reports ch = Ret (r0, r1) -> lied_verdict tx 2 ex_vk who (ve_lie i) r0 r1 (ve_ok i).
Proof.
  unfold ve_check, ve_verdict, lied_verdict. intros H Hc Hu. rewrite Hc, Hu in H. destruct (verifier_share tx true 2 ex_vk r0) as [v0|]; [|discriminate].
  destruct (verifier_share tx false 2 ex_vk r1) as [v1|]; [|discriminate]. exists v0, v1. split; [reflexivity|]. split; [reflexivity|].
  destruct (flp_decide tx 2 _) as [b|]; [|discriminate]. f_equal. apply eqb_prop. exact H.
Qed.
Lemma ve_checks : forallb (fun who => forallb (ve_check who) (seq 0 5)) [true; false] = true.
Proof. vm_cast_no_check (eq_refl true). Qed.
Lemma ve_lied who i ch r0 r1 : nth_error w_choices i = Some ch -> make_upload w_reports ch = Ret (r0, r1) -> lied_verdict tx 2 ex_vk who (ve_lie i) r0 r1 (ve_ok i).
Proof.
  intros Hc. assert (Hi : i < 5) by (change 5 with (length w_choices); apply nth_error_Some; congruence). apply ve_check_ok; [|exact Hc].
  pose proof ve_checks as H. rewrite forallb_forall in H. specialize (H who ltac:(destruct who; cbn; auto)). cbv beta in H. rewrite forallb_forall in H. apply H. apply in_seq. lia.
Qed.
Lemma ve_example who : ve_print (ve_run who) = Some [([true; false; true], [2; 1; 3])]%Z.
Proof.
  destruct (verdicts_overturned tx 2 3 ex_vk w_clients w_reports w_choices who ve_lie ve_ok 20 (w_cfg 2) (fst w_servers) (snd w_servers)) as (t0 & t1 & H);
    [exact tx_ok|lia|exact w_reports_ret|exact w_clients_good|exact w_choices_good|apply ve_lied|reflexivity|reflexivity|cbn; lia|cbn; lia|reflexivity|discriminate|cbn; lia|reflexivity|apply w_running|apply w_running
    |exists 1; split; [cbn; lia|reflexivity]|intros l H1 H2; exists [true]; split; [cbn; lia|reflexivity]|].
  unfold ve_run. rewrite H. vm_compute. reflexivity.
Qed.
(** with strings of one bit the verifiers are not even asked for *)
Definition ve_any (q : request) (r : response) : response := match q with QRunFlpQueries _ _ => ADone | _ => r end.
Lemma ve_any_about : about_queries ve_any.
Proof. intros q r. destruct q; first [exact I | reflexivity]. Qed.
Definition vo_clients : list client := [ex_client 0 [true] 1; ex_client 1 [true] 0].
Definition vo_choices : list choice := honest_choices [0; 1] ++ [bad_flp 1].
Definition vo_run (who : bool) : outcome (server * server * list result) :=
  tampered tx who ve_any (main_whh_p 20 tx (cfg_n 1 2) vo_clients ex_vk vo_choices) (server_start 0 (Some 1) 2) (server_start 1 (Some 1) 2).
Lemma vo_example who : ve_print (vo_run who) = Some [([true], [2; 1; 3])]%Z.
Proof. unfold vo_run. rewrite one_bit_unchecked by (exact ve_any_about || reflexivity). apply zs_eqb_ok. vm_cast_no_check (eq_refl true). Qed.
Succeed Definition by_computation := (eq_refl true <:
  forallb (fun who => zs_eqb (ve_print (ve_run who)) (Some [([true; false; true], [2; 1; 3])]%Z) &&
    zs_eqb (ve_print (tampered tx who ve_any (main_whh_p 20 tx (w_cfg 2) w_clients ex_vk w_choices) (fst w_servers) (snd w_servers))) None) [true; false] = true).
