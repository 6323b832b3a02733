(** Concrete case for C73: four requests at once, the last of which overtakes the second. *)
From Verif Require Import Base BaseFacts Field Util Env Prg Vidpf Merkle Collect Server Driver SpecPrg Sched SpecSched SchedFacts SchedRun Conc SpecConc RefEnv ToyEnv ExRun WhhExamples SchedExamples.

(** one step of request i, if it can make one *)
Definition advance (E : env) (i : nat) (m : machine) : option machine :=
  match nth_error (m_stages m) i with
  | Some (Received q) => Some (m_set m (m_coll m) (m_poison m) (m_locked m) (m_threads m) i (match prelock E q with Ret _ => Waiting q | Panic p => Answered (Panic p) end))
  | Some (Waiting q) => if m_locked m then None else Some (if m_poison m then m_set m (m_coll m) true false (m_threads m) i (Answered (Panic PPoison))
                                                          else m_set m (m_coll m) false true (m_threads m) i (Running (body_t E (m_server m) q)))
  | Some (Running (TDone (Ret (c, r)))) => Some (m_set m c (m_poison m) false (m_threads m) i (Answered (Ret r)))
  | Some (Running (TDone (Panic p))) => Some (m_set m (m_coll m) true false (m_threads m) i (Answered (Panic p)))
  | Some (Running t) => match one E (@rev nat) (m_threads m) 1 t with Some (thr', t') => Some (m_set m (m_coll m) (m_poison m) (m_locked m) thr' i (Running t')) | None => None end
  | _ => None
  end.
Fixpoint advance_all (E : env) (is : list nat) (m : machine) : option machine :=
  match is with [] => Some m | i :: is' => match advance E i m with Some m1 => advance_all E is' m1 | None => None end end.
Lemma advance_step E i m m' : advance E i m = Some m' -> machine_step E m m'.
Proof.
  unfold advance. intros H. exists i. unfold request_step. destruct (nth_error (m_stages m) i) as [[q|q|t|o]|]; try discriminate.
  - injection H as <-. reflexivity.
  - destruct (m_locked m); [discriminate|]. injection H as <-. split; reflexivity.
  - assert (Hd : (exists o, t = TDone o) \/ match one E (@rev nat) (m_threads m) 1 t with Some (thr', t') => Some (m_set m (m_coll m) (m_poison m) (m_locked m) thr' i (Running t')) | None => None end = Some m').
    { destruct t; [left; eauto|right; exact H|right; exact H|right; exact H]. }
    destruct Hd as [[[[c r]|p] ->]|Hd].
    + injection H as <-. right. left. eauto.
    + injection H as <-. right. right. eauto.
    + destruct (one E (@rev nat) (m_threads m) 1 t) as [[thr' t']|] eqn:Ho; [|discriminate]. injection Hd as <-. left. exists thr', t'. split; [|reflexivity]. eapply one_step. exact Ho.
Qed.
Lemma advance_steps E : forall is m m', advance_all E is m = Some m' -> machine_steps E m m'.
Proof.
  induction is as [|i is IH]; intros m m' H; cbn [advance_all] in H; [injection H as <-; constructor|]. destruct (advance E i m) as [m1|] eqn:Ha; [|discriminate]. econstructor; [eapply advance_step; exact Ha|apply IH; exact H].
Qed.

(** an ordinary crawl, two requests for the final shares, and one for an empty range of proofs, which panics in
    a debug build *)
Definition k_qs : list request := [QTreeCrawl 1 [] false; QFinalShares; QGetProofs 1 1; QFinalShares].
Definition k_start : machine := machine_start c_srv c_thr k_qs.
(** what there is to see of a request *)
Inductive seen_stage := SeenReceived | SeenWaiting | SeenRunning | SeenEntries (n : nat) | SeenPanic (p : panic_kind).
Definition k_see (st : stage) : seen_stage :=
  match st with
  | Received _ => SeenReceived | Waiting _ => SeenWaiting | Running _ => SeenRunning
  | Answered (Ret (ACrawl v _ _)) => SeenEntries (length v) | Answered (Ret (AFinal r)) => SeenEntries (length r) | Answered (Ret _) => SeenEntries 0
  | Answered (Panic p) => SeenPanic p
  end.
Definition k_show (m : option machine) : option (list seen_stage) := match m with Some m => Some (map k_see (m_stages m)) | None => None end.
(** the crawl is in the middle of its 18 steps, two others wait *)
Definition k_half : list nat := [1; 0; 3; 0; 0; 0; 0; 2; 0; 0].
Definition k_rest : list nat := repeat 0 14 ++ [3; 3; 2; 2; 1].
Lemma k_half_ok : k_show (advance_all tx k_half k_start) = Some [SeenRunning; SeenWaiting; SeenWaiting; SeenWaiting].
Proof. vm_compute. reflexivity. Qed.
Lemma k_all_ok : k_show (advance_all tx (k_half ++ k_rest) k_start) = Some [SeenEntries 2; SeenPanic PPoison; SeenPanic PDebugAssert; SeenEntries 2].
Proof. vm_compute. reflexivity. Qed.
Lemma k_see_ok is l : k_show (advance_all tx is k_start) = Some l -> exists m, machine_steps tx k_start m /\ map k_see (m_stages m) = l.
Proof. intros H. destruct (advance_all tx is k_start) as [m|] eqn:Hm; [|discriminate]. exists m. split; [eapply advance_steps; exact Hm|]. cbn [k_show] in H. injection H as H. exact H. Qed.
Lemma k_ok : coll16 (s_coll c_srv) /\ Forall (fun q => Forall report16 (reports_in q)) k_qs /\ (forall th, length (buf (c_thr th)) = 128) /\
  (exists m, machine_steps tx k_start m /\ map k_see (m_stages m) = [SeenRunning; SeenWaiting; SeenWaiting; SeenWaiting]) /\
  (exists m, machine_steps tx k_start m /\ map k_see (m_stages m) = [SeenEntries 2; SeenPanic PPoison; SeenPanic PDebugAssert; SeenEntries 2]).
Proof.
  destruct c_ok as (Hc & Ht & _). split; [exact Hc|]. split; [repeat constructor|]. split; [exact Ht|]. split; [exact (k_see_ok _ _ k_half_ok)|exact (k_see_ok _ _ k_all_ok)].
Qed.
