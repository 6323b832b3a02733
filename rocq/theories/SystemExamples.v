(** Concrete case for C77: the run of WhhExamples, with driver and aggregators taking turns, two of four for the second
    aggregator. *)
From Verif Require Import Base BaseFacts Field Util Env Prg Vidpf Merkle Collect Server Driver SpecPrg PrgSpecFacts2 SpecWhh Sched SpecSched SchedFacts SchedRun Conc SpecConc System SpecSystem SystemFacts RefEnv ToyEnv ExRun RefuteExamples WhhExamples SchedExamples ConcExamples HistExamples.

(** one step of the driver, if it can make one *)
Definition drive (E : env) {A} (y : system A) : option (system A) :=
  match y_driver y with
  | Busy (PDone _) => None
  | Busy (PCompute t k) =>
      match t with
      | TDone (Ret b) => Some (Build_system (Busy (k b)) (y_threads y) (y_m0 y) (y_m1 y))
      | TDone (Panic e) => Some (Build_system (Busy (PDone (Panic e))) (y_threads y) (y_m0 y) (y_m1 y))
      | _ => match one E (@rev nat) (y_threads y) 2 t with Some (thr', t') => Some (Build_system (Busy (PCompute t' k)) thr' (y_m0 y) (y_m1 y)) | None => None end
      end
  | Busy (PAsk q0 q1 k) => Some (Build_system (Awaiting k) (y_threads y) (receive (y_m0 y) q0) (receive (y_m1 y) q1))
  | Awaiting k =>
      match m_stages (y_m0 y), m_stages (y_m1 y) with
      | [Answered (Panic e)], _ => Some (Build_system (Busy (PDone (Panic e))) (y_threads y) (y_m0 y) (y_m1 y))
      | _, [Answered (Panic e)] => Some (Build_system (Busy (PDone (Panic e))) (y_threads y) (y_m0 y) (y_m1 y))
      | [Answered (Ret r0)], [Answered (Ret r1)] => Some (Build_system (Busy (k r0 r1)) (y_threads y) (y_m0 y) (y_m1 y))
      | _, _ => None
      end
  end.
Definition serve0 (E : env) {A} (y : system A) : option (system A) :=
  match advance E 0 (y_m0 y) with Some m => Some (Build_system (y_driver y) (y_threads y) m (y_m1 y)) | None => None end.
Definition serve1 (E : env) {A} (y : system A) : option (system A) :=
  match advance E 0 (y_m1 y) with Some m => Some (Build_system (y_driver y) (y_threads y) (y_m0 y) m) | None => None end.
Lemma drive_step E A (y y' : system A) : drive E y = Some y' -> system_step E y y'.
Proof.
  intros H. apply y_by_driver. destruct y as [d thr m0 m1]. unfold drive in H. cbn [y_driver y_threads y_m0 y_m1] in H. destruct d as [[o|B t k|q0 q1 k]|k].
  - discriminate.
  - assert (Hd : (exists o, t = TDone o) \/ match one E (@rev nat) thr 2 t with Some (thr', t') => Some (Build_system (Busy (PCompute t' k)) thr' m0 m1) | None => None end = Some y') by (destruct t; [left; eauto|right; exact H|right; exact H|right; exact H]).
    destruct Hd as [[[b|e] ->]|Hd]; [injection H as <-; apply d_result|injection H as <-; apply d_panic|].
    destruct (one E (@rev nat) thr 2 t) as [[thr' t']|] eqn:Ho; [|discriminate]. injection Hd as <-. apply d_compute. eapply one_step. exact Ho.
  - injection H as <-. apply d_send.
  - destruct (m_stages m0) as [|[q|q|t|[r0|e]] [|x l]] eqn:H0; destruct (m_stages m1) as [|[q'|q'|t'|[r1|e']] [|x' l']] eqn:H1; try discriminate; injection H as <-;
      first [eapply d_answers; eassumption | eapply d_failed0; eassumption | eapply d_failed1; eassumption].
Qed.
Lemma serve0_step E A (y y' : system A) : serve0 E y = Some y' -> system_step E y y'.
Proof. unfold serve0. destruct (advance E 0 (y_m0 y)) as [m|] eqn:Ha; [|discriminate]. intros H. injection H as <-. destruct y. apply y_by_0. eapply advance_step. exact Ha. Qed.
Lemma serve1_step E A (y y' : system A) : serve1 E y = Some y' -> system_step E y y'.
Proof. unfold serve1. destruct (advance E 0 (y_m1 y)) as [m|] eqn:Ha; [|discriminate]. intros H. injection H as <-. destruct y. apply y_by_1. eapply advance_step. exact Ha. Qed.
(** whose turn it is, or else the next one that can make a step *)
Definition turn (E : env) {A} (n : nat) (y : system A) : option (system A) :=
  let first a b c := match a with Some z => Some z | None => match b with Some z => Some z | None => c end end in
  match n mod 4 with
  | 0 => first (drive E y) (serve0 E y) (serve1 E y)
  | 1 => first (serve0 E y) (serve1 E y) (drive E y)
  | _ => first (serve1 E y) (drive E y) (serve0 E y)
  end.
Lemma turn_step E A n (y y' : system A) : turn E n y = Some y' -> system_step E y y'.
Proof.
  unfold turn. pose proof (drive_step E A y y') as Hd. pose proof (serve0_step E A y y') as H0. pose proof (serve1_step E A y y') as H1.
  destruct (drive E y); destruct (serve0 E y); destruct (serve1 E y); destruct (n mod 4) as [|[|k]]; auto; discriminate.
Qed.
(** until there is something to see *)
Fixpoint until (E : env) {A} (see : system A -> bool) (fuel : nat) (y : system A) : option (system A) :=
  if see y then Some y else
  match fuel with
  | O => None
  | S m => match turn E fuel y with Some y' => until E see m y' | None => None end
  end.
Lemma until_ok E A (see : system A -> bool) : forall fuel y y', until E see fuel y = Some y' -> system_steps E y y' /\ see y' = true.
Proof.
  induction fuel as [|m IH]; intros y y' H; cbn [until] in H; destruct (see y) eqn:Hs; try discriminate; try (injection H as <-; split; [constructor|exact Hs]).
  destruct (turn E (S m) y) as [y1|] eqn:Ht; [|discriminate]. destruct (IH _ _ H) as [H1 H2]. split; [|exact H2]. econstructor; [eapply turn_step; exact Ht|exact H1].
Qed.
Definition some {A} (o : option A) : bool := match o with Some _ => true | None => false end.

Definition y_proc (clients : list client) : proc (list result) := main_whh_p 20 tx (w_cfg 2) clients ex_vk w_choices.
Definition y_start (clients : list client) : system (list result) := system_start (y_proc clients) c_thr c_thr c_thr (fst w_servers) (snd w_servers).
(** the handlers of both aggregators run at the same time *)
Definition is_running (m : machine) : bool := match m_stages m with [Running _] => true | _ => false end.
Definition both_run (y : system (list result)) : bool := is_running (y_m0 y) && is_running (y_m1 y).
(** one aggregator is done, the other is not, and the driver waits *)
Definition half_done (y : system (list result)) : bool :=
  match y_driver y, m_stages (y_m0 y), m_stages (y_m1 y) with Awaiting _, [Running _], [Answered (Ret (ACrawl _ _ _))] => true | _, _, _ => false end.
Definition printed_is (l : list (list bool * list Z)) (y : system (list result)) : bool :=
  match y_driver y with Busy (PDone (Ret rs)) => vals_eqb (map vals rs) l | _ => false end.
Definition failed (y : system (list result)) : bool := match y_driver y with Busy (PDone (Panic _)) => true | _ => false end.

Lemma y_checks : (some (until tx both_run 500 (y_start w_clients)) && some (until tx half_done 500 (y_start w_clients)) &&
  some (until tx (printed_is [([true; false; true], [1; 2; 3])]%Z) 500 (y_start w_clients)))%bool = true.
Proof. vm_cast_no_check (eq_refl true). Qed.
Lemma some_ok {A} (o : option A) : some o = true -> exists a, o = Some a.
Proof. destruct o; [eauto|discriminate]. Qed.
(** an aggregator disabled by an earlier panic makes the run fail *)
Definition y_disabled : server := {| s_id := 0; s_bits := Some 3; s_coll := s_coll (fst w_servers); s_poison := true |}.
Definition y_start2 : system (list result) := system_start (y_proc w_clients) c_thr c_thr c_thr y_disabled (snd w_servers).
Lemma y_checks2 : some (until tx failed 200 y_start2) = true.
Proof. vm_cast_no_check (eq_refl true). Qed.
Lemma y_ok : coll16 (s_coll (fst w_servers)) /\ coll16 (s_coll (snd w_servers)) /\ coll16 (s_coll y_disabled) /\ Forall client16 w_clients /\ (forall th, length (buf (c_thr th)) = 128) /\
  (exists y, system_steps tx (y_start w_clients) y /\ both_run y = true) /\ (exists y, system_steps tx (y_start w_clients) y /\ half_done y = true) /\
  (exists y, system_steps tx (y_start w_clients) y /\ printed_is [([true; false; true], [1; 2; 3])]%Z y = true) /\
  (exists y, system_steps tx y_start2 y /\ failed y = true).
Proof.
  assert (Hc : forall c, check16 c = true -> coll16 c) by exact check16_ok.
  split; [apply Hc; vm_cast_no_check (eq_refl true)|]. split; [apply Hc; vm_cast_no_check (eq_refl true)|]. split; [apply Hc; vm_cast_no_check (eq_refl true)|].
  split; [repeat (apply Forall_cons; [split; apply is_key_dec; vm_cast_no_check (eq_refl true)|]); constructor|]. split; [apply c_ok|].
  pose proof y_checks as H. apply andb_true_iff in H. destruct H as [H H3]. apply andb_true_iff in H. destruct H as [H1 H2].
  assert (Hu : forall see (y0 : system (list result)), some (until tx see 500 y0) = true -> exists y, system_steps tx y0 y /\ see y = true) by (intros see y0 H; destruct (some_ok _ H) as [y Hy]; exists y; exact (until_ok _ _ _ _ _ _ Hy)).
  split; [apply Hu; exact H1|]. split; [apply Hu; exact H2|]. split; [apply Hu; exact H3|].
  pose proof y_checks2 as H4. destruct (some_ok _ H4) as [y Hy]. exists y. exact (until_ok _ _ _ _ _ _ Hy).
Qed.
