(** Concrete cases for C88: the runs of C52_example and C53_example. *)
From Verif Require Import Base BaseFacts Field Util Env Prg Vidpf Merkle Collect Server Driver Modes SpecVidpf SpecLevel SpecWhh SpecMetrics SpecModes Sched System SpecView SpecViews
  ViewFacts ViewsFacts RefEnv ToyEnv ExRun DriverPropFacts RefuteExamples WhhExamples ModesExamples.
From Coq Require Import Permutation Lia.

(** *** attribute-based metrics: five uploads of which the last is rejected, batches of two, the attributes 101 and 001 *)
Definition vw_script : list request :=
  let attrs := [[true; false; true]; [false; false; true]] in
  [QAbmValidate attrs 0 2; QAbmResult [] 2 0 2; QAbmValidate attrs 2 4; QAbmResult [] 2 2 4; QAbmValidate attrs 4 5; QAbmResult [4] 2 4 5].
Lemma vw_attrs : sample_attributes w_reports [1; 2; 1] = Ret [[false; false; true]; [true; false; true]].
Proof.
  assert (H : match sample_attributes w_reports [1; 2; 1] with Ret l => list_eqb (list_eqb Bool.eqb) l [[false; false; true]; [true; false; true]] | Panic _ => false end = true) by (vm_cast_no_check (eq_refl true)).
  destruct (sample_attributes w_reports [1; 2; 1]) as [l|e]; [|discriminate]. f_equal. revert H. generalize [[false; false; true]; [true; false; true]].
  assert (Hb : forall a b, list_eqb Bool.eqb a b = true -> a = b).
  { intros a. induction a as [|x a IH]; intros [|y b] H; cbn in H; try discriminate; [reflexivity|]. apply andb_prop in H. destruct H as [H1 H2]. apply Bool.eqb_prop in H1. rewrite H1, (IH b H2). reflexivity. }
  induction l as [|x l IH]; intros [|y b] H; cbn in H; try discriminate; [reflexivity|]. apply andb_prop in H. destruct H as [H1 H2]. rewrite (Hb _ _ H1), (IH b H2). reflexivity.
Qed.
Lemma vw_abm : exists ups parts, mapM (make_upload w_reports) w_choices = Ret ups /\ concat parts = ups /\
  asked tx (main_abm_p 20 tx (cfg2 2 2 1) w_clients ex_vk w_choices [1; 2; 1] (@rev (list bool))) (fst w_servers) (snd w_servers) =
  both (QReset ex_vk 2) :: map (fun part => (QAddReportShares (map fst part), QAddReportShares (map snd part))) parts ++ map both vw_script.
Proof.
  destruct (abm_view tx 2 3 ex_vk w_clients w_reports w_choices [1; 2; 1] (@rev (list bool)) 20 (cfg2 2 2 1) (fst w_servers) (snd w_servers)) as (attrs & ups & parts & Ha & Hu & Hp & H).
  - exact (toy_env_ok true true).
  - lia.
  - exact w_reports_ret.
  - exact w_clients_good.
  - exact w_choices_good.
  - exact tx_fixed.
  - reflexivity.
  - cbn; lia.
  - cbn; lia.
  - reflexivity.
  - discriminate.
  - cbn; lia.
  - repeat split.
  - exists 1%Z. split; [discriminate|]. repeat split.
  - cbn. intros s Hs. repeat (destruct Hs as [<-|Hs]; [lia|]). destruct Hs.
  - intros l. apply Permutation_sym, Permutation_rev.
  - exists ups, parts. split; [exact Hu|]. split; [exact Hp|]. rewrite H. rewrite vw_attrs in Ha. injection Ha as <-. reflexivity.
Qed.

(** *** plain metrics: uploads of the clients 0, 1, 2 (spoilt) and 2 in batches of three *)
Definition vw_first : list bytes := [[0; 1]; [1; 0]; [0; 1]; [0; 1]]%N.
Definition vw_second : list bytes := [[0; 0]; [0; 0]; [1; 0]; [0; 0]]%N.
Definition vw_seen : list (request * request) :=
  asked rx (main_pm_p 20 rx p_shard (cfg2 2 3 1) p_clients ex_vk p_choices) (server_start 0 None 2) (server_start 1 None 2).
Lemma vw_all {A B} (g : A -> option B) l w v : Forall2 (fun x y => g x = Some y) l w -> map g l = map Some v -> w = v.
Proof.
  intros H. revert v. induction H as [|x y l w H1 H2 IH]; intros [|z v] Hv; cbn in Hv; try discriminate; [reflexivity|].
  injection Hv as Hz Hv. rewrite H1 in Hz. injection Hz as ->. rewrite (IH v Hv). reflexivity.
Qed.
Lemma vw_pm : exists parts : list (list (report_share * report_share)),
  map fst vw_seen = QReset ex_vk 2 :: map (fun part => QAddReportShares (map fst part)) parts ++
    [QPmValidate 0 3; QPmResult [[0; 0]; [0; 0]; [1; 0]]%N 0 3; QPmValidate 3 4; QPmResult [[0; 0]]%N 3 4] /\
  map snd vw_seen = QReset ex_vk 2 :: map (fun part => QAddReportShares (map snd part)) parts ++
    [QPmValidate 0 3; QPmResult [[0; 1]; [1; 0]; [0; 1]]%N 0 3; QPmValidate 3 4; QPmResult [[0; 1]]%N 3 4].
Proof.
  destruct p_example as (_ & _ & _ & Hr). unfold vw_seen.
  destruct (main_pm 20 rx p_shard (cfg2 2 3 1) p_clients ex_vk p_choices (server_start 0 None 2) (server_start 1 None 2)) as [x|e] eqn:Hx; [clear Hr|discriminate].
  destruct (pm_view rx p_shard 2 ex_vk p_clients _ p_choices _ 20 (cfg2 2 3 1) (server_start 0 None 2) (server_start 1 None 2) x eq_refl eq_refl eq_refl ltac:(cbn; lia) ltac:(cbn; lia) ltac:(cbn; lia) eq_refl eq_refl eq_refl eq_refl Hx)
    as (parts & w0 & w1 & Hp & F0 & F1 & A0 & A1).
  assert (W0 : w0 = vw_first) by (apply (vw_all (fun u => prep_share rx 2 ex_vk 0 (fst u)) _ _ _ F0); reflexivity).
  assert (W1 : w1 = vw_second) by (apply (vw_all (fun u => prep_share rx 2 ex_vk 1 (snd u)) _ _ _ F1); reflexivity).
  exists parts. rewrite A0, A1, W0, W1. split; reflexivity.
Qed.
