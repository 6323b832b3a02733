(** Concrete case for C72: an aggregator with three reports answers its first crawl, with three threads whose
    streams have been used before, the closures taken in turn from the back. *)
From Verif Require Import Base BaseFacts Field Util Env Prg Vidpf Merkle Collect Server Driver SpecPrg PrgSpecFacts2 Sched SpecSched SchedFacts SchedRun RefEnv ToyEnv ExRun WhhExamples.
From Coq Require Import Lia.

(** one step of thread [th]; among closures the first one in the order [order] that can make a step *)
Fixpoint one (E : env) (order : list nat -> list nat) {A} (thr : threads) (th : nat) (t : task A) : option (threads * task A) :=
  match t with
  | TDone _ => None
  | TExpand key l r k => match expand_dir_on E (thr th) key l r with Ret (s, o) => Some (set_thread thr th s, k o) | Panic _ => None end
  | TConvert key n k => match convert_on E (thr th) key n with Ret (s, o) => Some (set_thread thr th s, k o) | Panic _ => None end
  | TPar n ts k =>
      match fold_left (fun acc i => match acc with
                                    | Some x => Some x
                                    | None => if i <? n then match one E order thr th (ts i) with Some (thr', u) => Some (thr', TPar n (set_task ts i u) k) | None => None end else None
                                    end) (order (seq 0 n)) None with
      | Some x => Some x
      | None => match mapM (fun i => match ts i with TDone o => o | _ => Panic PFuel end) (seq 0 n) with Ret vs => Some (thr, k vs) | Panic _ => None end
      end
  end.
Lemma one_step E order : forall A (t : task A) thr th thr' t', one E order thr th t = Some (thr', t') -> step E thr t thr' t'.
Proof.
  intros A t. induction t as [A o|A key l r k IH|A key n k IH|A B n ts IHts k IHk]; intros thr th thr' t' H; cbn [one step] in *; [discriminate| | |].
  - exists th. left. destruct (expand_dir_on E (thr th) key l r) as [[s o]|]; [|discriminate]. injection H as <- <-. eauto.
  - exists th. left. destruct (convert_on E (thr th) key n) as [[s o]|]; [|discriminate]. injection H as <- <-. eauto.
  - destruct (fold_left _ (order (seq 0 n)) None) as [[thr1 t1]|] eqn:Hf.
    + injection H as -> ->. left. revert Hf.
      match goal with |- fold_left ?f _ _ = _ -> _ => assert (Hs : forall l (x : threads * task A), fold_left f l (Some x) = Some x) by (intros l x; induction l as [|i l IHl]; [reflexivity|exact IHl]) end.
      generalize (order (seq 0 n)). intros l. induction l as [|i l IHl]; cbn [fold_left]; [discriminate|].
      destruct (i <? n) eqn:Hi; [|exact IHl]. destruct (one E order thr th (ts i)) as [[thr2 u]|] eqn:Ho; [|exact IHl]. rewrite Hs. intros H. injection H as <- <-.
      exists i, u. split; [apply Nat.ltb_lt; exact Hi|]. split; [eapply IHts; exact Ho|reflexivity].
    + destruct (mapM _ (seq 0 n)) as [vs|] eqn:Hm; [|discriminate]. injection H as <- <-. right. left. exists vs. apply mapM_seq_iff in Hm. destruct Hm as [Hl Hv]. split; [exact Hl|]. split; [|auto].
      intros i v Hi. specialize (Hv i v Hi). destruct (ts i); try discriminate. rewrite Hv. reflexivity.
Qed.
(** as many steps as it takes, the threads in turn *)
Fixpoint all_steps (E : env) (order : list nat -> list nat) {A} (fuel : nat) (thr : threads) (t : task A) : nat * outcome A :=
  match fuel with
  | O => (0, Panic PFuel)
  | S m => match t with
           | TDone o => (0, o)
           | _ => match one E order thr (fuel mod 3) t with Some (thr', t') => let '(n, o) := all_steps E order m thr' t' in (S n, o) | None => (0, Panic PFuel) end
           end
  end.
Lemma all_steps_ok E order A : forall fuel thr (t : task A) n a, all_steps E order fuel thr t = (n, Ret a) -> exists thr', steps E n thr t thr' (TDone (Ret a)).
Proof.
  induction fuel as [|m IH]; intros thr t n a H; cbn [all_steps] in H; [discriminate|].
  assert (Hd : (exists o, t = TDone o) \/ match one E order thr (S m mod 3) t with Some (thr', t') => let '(n, o) := all_steps E order m thr' t' in (S n, o) | None => (0, Panic PFuel) end = (n, Ret a)) by (destruct t; [left; eauto|right; exact H|right; exact H|right; exact H]).
  destruct Hd as [[o ->]|Hd].
  - injection H as <- ->. exists thr. split; reflexivity.
  - destruct (one E order thr (S m mod 3) t) as [[thr1 t1]|] eqn:Ho; [|discriminate]. destruct (all_steps E order m thr1 t1) as [n1 o1] eqn:Hs. injection Hd as <- ->. destruct (IH _ _ _ _ Hs) as [thr' Hst]. exists thr'. cbn [steps]. exists thr1, t1. split; [eapply one_step; exact Ho|exact Hst].
Qed.

Definition c_srv : server := ex_server tx 0 3 [].
(** streams in the middle of some other read *)
Definition c_thr : threads := fun th => {| ctr := ex_vk; buf := repeat (N.of_nat th) 128; have := 128; buf_ptr := 7 * th |}.
Definition c_task : task (coll * response) := body_t tx c_srv (QTreeCrawl 1 [] false).
Definition answer_of (o : outcome (coll * response)) : list (list Z) * list bytes :=
  match o with Ret (_, ACrawl v r _) => (map (map fval) v, r) | _ => ([], []) end.
Definition answer_eqb (a b : list (list Z) * list bytes) : bool := list_eqb (list_eqb Z.eqb) (fst a) (fst b) && list_eqb bytes_eqb (snd a) (snd b).
Definition check16 (c : coll) : bool :=
  let key k := (length k =? 16) && forallb (fun x => x <? 256)%N k in
  forallb (fun hr : bool * report_share => match snd hr with RSMastic _ k _ _ => key (root_seed k) && forallb (fun cw => key (cw_seed cw)) (cor_words k) | RSPrio3 _ _ _ => true end) (c_reports c) &&
  forallb (fun n => forallb (fun st => key (es_seed st)) (tn_states n)) (c_frontier c) && forallb (fun n => forallb (fun st => key (es_seed st)) (tn_states n)) (c_prev c).
Lemma check16_ok c : check16 c = true -> coll16 c.
Proof.
  unfold check16. intros H. apply andb_true_iff in H. destruct H as [H Hp]. apply andb_true_iff in H. destruct H as [Hr Hf].
  assert (Hn : forall l, forallb (fun n => forallb (fun st => (length (es_seed st) =? 16) && forallb (fun x => x <? 256)%N (es_seed st)) (tn_states n)) l = true -> Forall node16 l).
  { intros l Hl. apply Forall_forall. intros n Hin. apply (proj1 (forallb_forall _ _) Hl) in Hin. apply Forall_forall. intros st Hst. apply is_key_dec. apply (proj1 (forallb_forall _ _) Hin). exact Hst. }
  split; [|split; apply Hn; assumption]. apply Forall_forall. intros hr Hin. apply (proj1 (forallb_forall _ _) Hr) in Hin. destruct hr as [h [nonce k pf jr|]]; cbn [snd report16] in *; [|exact I].
  apply andb_true_iff in Hin. destruct Hin as [H1 H2]. split; [apply is_key_dec; exact H1|]. apply Forall_forall. intros cw Hc. apply is_key_dec. apply (proj1 (forallb_forall _ _) H2). exact Hc.
Qed.
Definition is_answer (x : nat * outcome (coll * response)) : bool := match snd x with Ret (_, ACrawl _ _ _) => true | _ => false end.
Definition c_check (x : nat * outcome (coll * response)) : bool :=
  (fst x =? 18) && is_answer x && answer_eqb (answer_of (snd x)) (answer_of (body tx c_srv (QTreeCrawl 1 [] false))).
Lemma c_check_ok : c_check (all_steps tx (@rev nat) 200 c_thr c_task) = true.
Proof. vm_cast_no_check (eq_refl true). Qed.
Lemma c_ok : coll16 (s_coll c_srv) /\ (forall th, length (buf (c_thr th)) = 128) /\
  exists a thr', steps tx 18 c_thr c_task thr' (TDone (Ret a)) /\ answer_eqb (answer_of (Ret a)) (answer_of (body tx c_srv (QTreeCrawl 1 [] false))) = true.
Proof.
  split; [apply check16_ok; vm_cast_no_check (eq_refl true)|]. split; [intros th; unfold c_thr; cbn [buf]; apply repeat_length|].
  pose proof c_check_ok as H. pose proof (all_steps_ok tx (@rev nat) _ 200 c_thr c_task) as Hs. revert H Hs. generalize (all_steps tx (@rev nat) 200 c_thr c_task). intros [n o]. unfold c_check, is_answer. cbn [fst snd].
  destruct o as [a|p]; [|rewrite andb_false_r; discriminate]. intros H Hs. apply andb_true_iff in H. destruct H as [H Ha]. apply andb_true_iff in H. destruct H as [Hn _]. apply Nat.eqb_eq in Hn. subst n.
  destruct (Hs 18 a eq_refl) as [thr' Hst]. exists a, thr'. split; [exact Hst|exact Ha].
Qed.
