(** Proofs for C73. *)
From Verif Require Import Base BaseFacts Field Util UtilFacts Env Prg Vidpf Merkle Collect Server Driver SpecPrg Sched SpecSched SchedFacts SchedRun Conc SpecConc.
From Coq Require Import Lia.

Lemma NoDup_snoc {A} (l : list A) x : NoDup l -> ~ In x l -> NoDup (l ++ [x]).
Proof.
  induction l as [|y l IH]; intros Hn Hx; cbn; [constructor; [intros []|constructor]|]. inversion Hn; subst. constructor; [|apply IH; [assumption|intros H; apply Hx; right; exact H]].
  rewrite in_app_iff. intros [H|[H|[]]]; [contradiction|]. subst. apply Hx. left. reflexivity.
Qed.
Lemma handle_ids E s q : s_id (fst (handle E s q)) = s_id s /\ s_bits (fst (handle E s q)) = s_bits s.
Proof. unfold handle. destruct (prelock E q); [|split; reflexivity]. destruct (s_poison s); [split; reflexivity|]. destruct (body E s q) as [[c r]|p]; split; reflexivity. Qed.
Lemma handle_all_ids E : forall qs s, s_id (fst (handle_all E s qs)) = s_id s /\ s_bits (fst (handle_all E s qs)) = s_bits s.
Proof.
  induction qs as [|q qs IH]; intros s; [split; reflexivity|]. cbn [handle_all]. pose proof (handle_ids E s q) as [H1 H2]. destruct (handle E s q) as [s1 a]. cbn [fst] in *.
  specialize (IH s1). destruct (handle_all E s1 qs) as [s2 l]. cbn [fst] in *. destruct IH. split; congruence.
Qed.
Lemma handle_all_last E q : forall qs s s' l, handle_all E s qs = (s', l) -> handle_all E s (qs ++ [q]) = (fst (handle E s' q), l ++ [snd (handle E s' q)]).
Proof.
  induction qs as [|x qs IH]; intros s s' l H; cbn [handle_all app] in *.
  - injection H as <- <-. destruct (handle E s q); reflexivity.
  - destruct (handle E s x) as [s1 a]. destruct (handle_all E s1 qs) as [s2 l2] eqn:H2. injection H as <- <-. rewrite (IH _ _ _ H2). reflexivity.
Qed.

Section Machine.
Context (E : env) (Hok : env_ok E) (s : server) (qs : list request) (Hqs : Forall (fun q => Forall report16 (reports_in q)) qs).

Definition stage_ok (m : machine) (i : nat) (st : stage) : Prop :=
  match st with
  | Received q => nth_error qs i = Some q
  | Waiting q => nth_error qs i = Some q /\ exists u, prelock E q = Ret u
  | Running t => m_locked m = true /\ m_poison m = false /\
      exists q, nth_error qs i = Some q /\ (exists u, prelock E q = Ret u) /\ good E t /\ same_outcome (alone E t) (body E (m_server m) q)
  | Answered _ => i < length qs
  end.
Record minv (m : machine) : Prop := {
  i_id : m_id m = s_id s; i_bits : m_bits m = s_bits s;
  i_thr : ok_threads (m_threads m);
  i_stage : forall i st, nth_error (m_stages m) i = Some st -> stage_ok m i st;
  i_one : forall i j, holds_lock m i -> holds_lock m j -> i = j;
  i_held : m_locked m = true -> exists i, holds_lock m i;
  i_coll : m_poison m = false -> coll16 (m_coll m) }.

Lemma start_inv thr : coll16 (s_coll s) -> ok_threads thr -> minv (machine_start s thr qs).
Proof.
  intros Hc Ht. assert (Hn : forall i st, nth_error (m_stages (machine_start s thr qs)) i = Some st -> exists q, nth_error qs i = Some q /\ st = Received q).
  { intros i st H. cbn [m_stages machine_start] in H. rewrite nth_error_map in H. destruct (nth_error qs i) as [q|]; [|discriminate]. injection H as <-. eauto. }
  constructor; try reflexivity.
  - exact Ht.
  - intros i st H. destruct (Hn i st H) as (q & Hq & ->). exact Hq.
  - intros i j (t & H) _. destruct (Hn _ _ H) as (q & _ & Hq). discriminate.
  - discriminate.
  - intros _. exact Hc.
Qed.

Lemma m_set_nth m c p l thr i st0 st j : nth_error (m_stages m) i = Some st0 -> nth_error (m_stages (m_set m c p l thr i st)) j = if j =? i then Some st else nth_error (m_stages m) j.
Proof.
  intros H. cbn [m_stages m_set]. destruct (j =? i) eqn:Hj.
  - apply Nat.eqb_eq in Hj. subst j. apply update_nth_eq. apply nth_error_Some. congruence.
  - apply Nat.eqb_neq in Hj. apply update_nth_neq. congruence.
Qed.
(** nobody else holds the lock *)
Lemma alone_holder m i : minv m -> (m_locked m = false \/ holds_lock m i) -> forall j t, j <> i -> nth_error (m_stages m) j <> Some (Running t).
Proof.
  intros Hm [Hl|Hh] j t Hj Hn.
  - pose proof (i_stage _ Hm _ _ Hn) as (Hlk & _). congruence.
  - apply Hj. apply (i_one _ Hm); [exists t; exact Hn|exact Hh].
Qed.

(** the mutex changes hands: request i moves to [st] while no other request holds the guard *)
Lemma set_inv m i st0 st c p l thr : minv m -> nth_error (m_stages m) i = Some st0 -> (forall j t, j <> i -> nth_error (m_stages m) j <> Some (Running t)) ->
  ok_threads thr -> (p = false -> coll16 c) -> stage_ok (m_set m c p l thr i st) i st -> (l = true <-> exists t, st = Running t) -> minv (m_set m c p l thr i st).
Proof.
  intros Hm Hi Hno Ht Hc Hst Hl. constructor.
  - apply (i_id _ Hm).
  - apply (i_bits _ Hm).
  - exact Ht.
  - intros j st' Hj. rewrite (m_set_nth _ _ _ _ _ _ _ _ _ Hi) in Hj. destruct (j =? i) eqn:Hji.
    + apply Nat.eqb_eq in Hji. subst j. injection Hj as <-. exact Hst.
    + apply Nat.eqb_neq in Hji. pose proof (i_stage _ Hm _ _ Hj) as H. destruct st'; try exact H. exfalso. exact (Hno _ _ Hji Hj).
  - assert (H : forall j, holds_lock (m_set m c p l thr i st) j -> j = i).
    { intros j (t & Hj). rewrite (m_set_nth _ _ _ _ _ _ _ _ _ Hi) in Hj. destruct (j =? i) eqn:Hji; [apply Nat.eqb_eq; exact Hji|]. apply Nat.eqb_neq in Hji. exfalso. exact (Hno _ _ Hji Hj). }
    intros j k Hj Hk. rewrite (H j Hj), (H k Hk). reflexivity.
  - cbn [m_locked m_set]. intros Hlk. apply Hl in Hlk. destruct Hlk as [t ->]. exists i, t. rewrite (m_set_nth _ _ _ _ _ _ _ _ _ Hi), Nat.eqb_refl. reflexivity.
  - exact Hc.
Qed.
(** request i moves without touching the mutex *)
Lemma move_inv m i st0 st : minv m -> nth_error (m_stages m) i = Some st0 -> (forall t, st0 <> Running t) -> (forall t, st <> Running t) -> stage_ok m i st ->
  minv (m_set m (m_coll m) (m_poison m) (m_locked m) (m_threads m) i st).
Proof.
  intros Hm Hi H0 H1 Hst.
  assert (Hh : forall j, holds_lock (m_set m (m_coll m) (m_poison m) (m_locked m) (m_threads m) i st) j <-> holds_lock m j).
  { intros j. unfold holds_lock. rewrite (m_set_nth _ _ _ _ _ _ _ _ _ Hi). destruct (j =? i) eqn:Hj; [|reflexivity]. apply Nat.eqb_eq in Hj. subst j. split; intros (t & Ht); exfalso; [apply (H1 t)|apply (H0 t)]; congruence. }
  constructor; [exact (i_id _ Hm)|exact (i_bits _ Hm)|exact (i_thr _ Hm)| | | |exact (i_coll _ Hm)].
  - intros j st' Hj. rewrite (m_set_nth _ _ _ _ _ _ _ _ _ Hi) in Hj. destruct (j =? i) eqn:Hji.
    + apply Nat.eqb_eq in Hji. subst j. injection Hj as <-. destruct st; exact Hst.
    + pose proof (i_stage _ Hm _ _ Hj) as H. destruct st'; exact H.
  - intros j k Hj Hk. apply (i_one _ Hm); apply Hh; assumption.
  - intros Hl. destruct (i_held _ Hm Hl) as [j Hj]. exists j. apply Hh. exact Hj.
Qed.

Lemma nth_bound {A} (l : list A) i a : nth_error l i = Some a -> i < length l.
Proof. intros H. apply nth_error_Some. congruence. Qed.

Lemma qs_report i q : nth_error qs i = Some q -> Forall report16 (reports_in q).
Proof. intros H. apply (proj1 (Forall_forall _ _) Hqs). eapply nth_error_In. exact H. Qed.

Lemma step_inv m i m' : minv m -> request_step E m i m' -> minv m'.
Proof.
  intros Hm. unfold request_step. destruct (nth_error (m_stages m) i) as [[q|q|t|o]|] eqn:Hi; try contradiction; pose proof (i_stage _ Hm _ _ Hi) as Hst; cbn [stage_ok] in Hst.
  - intros ->. apply (move_inv m i (Received q)); [exact Hm|exact Hi|discriminate|destruct (prelock E q); discriminate|].
    destruct (prelock E q) as [u|p] eqn:Hp; cbn [stage_ok]; [eauto|eapply nth_bound; exact Hst].
  - intros [Hl ->]. destruct Hst as [Hq Hp]. assert (Hno : forall j t, j <> i -> nth_error (m_stages m) j <> Some (Running t)) by (apply alone_holder; auto).
    destruct (m_poison m) eqn:Hpo.
    + apply (set_inv _ _ _ _ _ _ _ _ Hm Hi Hno); [exact (i_thr _ Hm)|discriminate|cbn; eapply nth_bound; exact Hq|]. split; [discriminate|intros [t Ht]; discriminate].
    + pose proof (i_coll _ Hm Hpo) as Hc. apply (set_inv _ _ _ _ _ _ _ _ Hm Hi Hno); [exact (i_thr _ Hm)|intros _; exact Hc| |split; eauto].
      cbn [stage_ok m_locked m_poison m_set]. split; [reflexivity|]. split; [reflexivity|]. exists q. split; [exact Hq|]. split; [exact Hp|]. split; [apply (body_good E Hok); exact Hc|].
      rewrite (alone_body E). replace (m_server (m_set m (m_coll m) false true (m_threads m) i (Running (body_t E (m_server m) q)))) with (m_server m) by (unfold m_server, m_set; cbn; rewrite Hpo; reflexivity). apply same_refl.
  - destruct Hst as (Hl & Hpo & q & Hq & Hp & Hg & Hsame). assert (Hno : forall j t, j <> i -> nth_error (m_stages m) j <> Some (Running t)) by (apply alone_holder; [exact Hm|right; exists t; exact Hi]).
    intros [(thr' & t' & Hs & ->)|[(c & r & -> & ->)|(p & c & -> & ->)]].
    + destruct (step_ok E Hok _ _ _ _ _ Hg (i_thr _ Hm) Hs) as (Ht' & Hg' & _ & Hsm). apply (set_inv _ _ _ _ _ _ _ _ Hm Hi Hno); [exact Ht'|exact (i_coll _ Hm)| |rewrite Hl; split; eauto].
      cbn [stage_ok m_locked m_poison m_set]. split; [exact Hl|]. split; [exact Hpo|]. exists q. split; [exact Hq|]. split; [exact Hp|]. split; [exact Hg'|]. exact (same_trans _ _ _ Hsm Hsame).
    + apply (set_inv _ _ _ _ _ _ _ _ Hm Hi Hno); [exact (i_thr _ Hm)| |cbn; eapply nth_bound; exact Hq|split; [discriminate|intros [t Ht]; discriminate]].
      intros _. cbn [alone] in Hsame. destruct (body E (m_server m) q) as [[c1 r1]|p] eqn:Hb; cbn [same_outcome] in Hsame; [|destruct Hsame; discriminate]. injection Hsame as -> ->.
      eapply (body16 E (m_server m) q); [exact Hok|exact (i_coll _ Hm Hpo)|eapply qs_report; exact Hq|exact Hb].
    + apply (set_inv _ _ _ _ _ _ _ _ Hm Hi Hno); [exact (i_thr _ Hm)|discriminate|cbn; eapply nth_bound; exact Hq|split; [discriminate|intros [t Ht]; discriminate]].
Qed.

(** a request that is not answered by the step *)
Lemma order_keep m i m' st0 st order : nth_error (m_stages m) i = Some st0 -> (forall o, st0 <> Answered o) -> (forall o, st <> Answered o) ->
  (forall j, nth_error (m_stages m') j = if j =? i then Some st else nth_error (m_stages m) j) -> m_poison m' = m_poison m -> m_coll m' = m_coll m -> in_order E s qs m order -> in_order E s qs m' order.
Proof.
  intros Hi H0 H1 Hn Hp Hc (Hnd & Hin & qs' & s' & ans & Hq & Hh & Ha & Hpo & Hco).
  assert (Hans : forall j o, nth_error (m_stages m') j = Some (Answered o) <-> nth_error (m_stages m) j = Some (Answered o)).
  { intros j o. rewrite Hn. destruct (j =? i) eqn:Hj; [|reflexivity]. apply Nat.eqb_eq in Hj. subst j. split; intros H; exfalso; [apply (H1 o)|apply (H0 o)]; congruence. }
  split; [exact Hnd|]. split.
  - intros j. rewrite Hin. split; intros [o Ho]; exists o; apply Hans; exact Ho.
  - exists qs', s', ans. split; [exact Hq|]. split; [exact Hh|]. split; [|rewrite Hp, Hc; split; assumption].
    clear - Ha Hans. induction Ha as [|j a l l' (o & Ho & Hs) Hl IH]; constructor; [|exact IH]. exists o. split; [apply Hans; exact Ho|exact Hs].
Qed.
(** one that is *)
Lemma order_add m i m' st0 o q order : nth_error (m_stages m) i = Some st0 -> (forall o, st0 <> Answered o) -> nth_error qs i = Some q ->
  (forall j, nth_error (m_stages m') j = if j =? i then Some (Answered o) else nth_error (m_stages m) j) ->
  (forall s', s_id s' = s_id s -> s_bits s' = s_bits s -> m_poison m = s_poison s' -> (m_poison m = false -> m_coll m = s_coll s') ->
     same_outcome o (snd (handle E s' q)) /\ m_poison m' = s_poison (fst (handle E s' q)) /\ (m_poison m' = false -> m_coll m' = s_coll (fst (handle E s' q)))) ->
  in_order E s qs m order -> in_order E s qs m' (order ++ [i]).
Proof.
  intros Hi H0 Hqi Hn Hnew (Hnd & Hin & qs' & s' & ans & Hq & Hh & Ha & Hpo & Hco).
  assert (Hnot : ~ In i order) by (rewrite Hin; intros [o' Ho]; apply (H0 o'); congruence).
  assert (Hans : forall j, j <> i -> nth_error (m_stages m') j = nth_error (m_stages m) j) by (intros j Hj; rewrite Hn, (proj2 (Nat.eqb_neq j i) Hj); reflexivity).
  assert (Hnow : nth_error (m_stages m') i = Some (Answered o)) by (rewrite Hn, Nat.eqb_refl; reflexivity).
  split; [|split].
  - apply NoDup_snoc; assumption.
  - intros j. rewrite in_app_iff. unfold answered. destruct (Nat.eq_dec j i) as [->|Hj].
    + rewrite Hnow. split; [eauto|intros _; right; left; reflexivity].
    + rewrite (Hans j Hj). rewrite (Hin j). unfold answered. split; [intros [H|[H|[]]]; [exact H|congruence]|auto].
  - pose proof (handle_all_ids E qs' s) as [Hid Hbits]. rewrite Hh in Hid, Hbits. cbn [fst] in *. destruct (Hnew s' Hid Hbits Hpo Hco) as (Hs & Hp' & Hc').
    exists (qs' ++ [q]), (fst (handle E s' q)), (ans ++ [snd (handle E s' q)]). split; [apply Forall2_app; [exact Hq|constructor; [exact Hqi|constructor]]|].
    split; [apply handle_all_last; exact Hh|]. split; [|split; assumption]. apply Forall2_app; [|constructor; [eauto|constructor]].
    clear - Ha Hnot Hans. revert Hnot. induction Ha as [|j a l l' (o' & Ho & Hs) Hl IH]; intros Hnot; [constructor|]. constructor; [|apply IH; intros H; apply Hnot; right; exact H].
    exists o'. split; [|exact Hs]. rewrite Hans; [exact Ho|]. intros ->. apply Hnot. left. reflexivity.
Qed.

Lemma same_server m s' : minv m -> s_id s' = s_id s -> s_bits s' = s_bits s -> m_poison m = s_poison s' -> m_coll m = s_coll s' -> m_server m = s'.
Proof. intros Hm H1 H2 H3 H4. destruct s' as [a b c d]. unfold m_server. cbn in *. rewrite (i_id _ Hm), (i_bits _ Hm), H3, H4, H1, H2. reflexivity. Qed.

Lemma step_order m i m' order : minv m -> request_step E m i m' -> in_order E s qs m order -> exists more, in_order E s qs m' (order ++ more).
Proof.
  intros Hm. unfold request_step. destruct (nth_error (m_stages m) i) as [[q|q|t|o]|] eqn:Hi; try contradiction; pose proof (i_stage _ Hm _ _ Hi) as Hst; cbn [stage_ok] in Hst.
  - intros -> Ho. destruct (prelock E q) as [u|p] eqn:Hp.
    + exists []. rewrite app_nil_r. eapply order_keep; [exact Hi|discriminate| |intros j; eapply m_set_nth; exact Hi|reflexivity|reflexivity|exact Ho]. discriminate.
    + exists [i]. eapply order_add; [exact Hi|discriminate|exact Hst|intros j; eapply m_set_nth; exact Hi| |exact Ho].
      intros s' _ _ H1 H2. unfold handle. rewrite Hp. cbn. eauto.
  - intros [Hl ->] Ho. destruct Hst as [Hq [u Hp]]. destruct (m_poison m) eqn:Hpo.
    + exists [i]. eapply order_add; [exact Hi|discriminate|exact Hq|intros j; eapply m_set_nth; exact Hi| |exact Ho].
      intros s' _ _ H1 _. rewrite Hpo in H1. unfold handle. rewrite Hp, <- H1. cbn. repeat split; eauto; discriminate.
    + exists []. rewrite app_nil_r. eapply order_keep; [exact Hi|discriminate| |intros j; eapply m_set_nth; exact Hi|symmetry; exact Hpo|reflexivity|exact Ho]. discriminate.
  - destruct Hst as (Hl & Hpo & q & Hq & [u Hp] & Hg & Hsame).
    intros [(thr' & t' & Hs & ->)|[(c & r & -> & ->)|(p & c & -> & ->)]] Ho.
    + exists []. rewrite app_nil_r. eapply order_keep; [exact Hi|discriminate| |intros j; eapply m_set_nth; exact Hi|reflexivity|reflexivity|exact Ho]. discriminate.
    + exists [i]. eapply order_add; [exact Hi|discriminate|exact Hq|intros j; eapply m_set_nth; exact Hi| |exact Ho].
      intros s' H1 H2 H3 H4. specialize (H4 Hpo). pose proof (same_server m s' Hm H1 H2 H3 H4) as Hsv. rewrite Hsv in Hsame. cbn [alone] in Hsame.
      unfold handle. rewrite Hp, <- H3, Hpo. destruct (body E s' q) as [[c1 r1]|p1]; cbn [same_outcome] in Hsame; [|destruct Hsame; discriminate]. injection Hsame as -> ->. cbn. repeat split; congruence.
    + exists [i]. eapply order_add; [exact Hi|discriminate|exact Hq|intros j; eapply m_set_nth; exact Hi| |exact Ho].
      intros s' H1 H2 H3 H4. specialize (H4 Hpo). pose proof (same_server m s' Hm H1 H2 H3 H4) as Hsv. rewrite Hsv in Hsame. cbn [alone] in Hsame.
      unfold handle. rewrite Hp, <- H3, Hpo. destruct (body E s' q) as [[c1 r1]|p1]; cbn [same_outcome] in Hsame; [discriminate|]. cbn. repeat split; eauto; discriminate.
Qed.
Lemma start_order thr : in_order E s qs (machine_start s thr qs) [].
Proof.
  split; [constructor|]. split.
  - intros i. split; [contradiction|]. intros [o Ho]. cbn [m_stages machine_start] in Ho. rewrite nth_error_map in Ho. destruct (nth_error qs i); discriminate.
  - exists [], s, []. cbn. repeat split; auto.
Qed.
Lemma steps_inv m m' : machine_steps E m m' -> minv m -> minv m' /\ forall order, in_order E s qs m order -> exists more, in_order E s qs m' (order ++ more).
Proof.
  induction 1 as [m|m m1 m2 [i H1] H2 IH]; intros Hm; [split; [exact Hm|]; intros order Ho; exists []; rewrite app_nil_r; exact Ho|].
  pose proof (step_inv _ _ _ Hm H1) as Hm1. destruct (IH Hm1) as [Hm2 Hord]. split; [exact Hm2|]. intros order Ho. destruct (step_order _ _ _ _ Hm H1 Ho) as [more1 Ho1]. destruct (Hord _ Ho1) as [more2 Ho2].
  exists (more1 ++ more2). rewrite app_assoc. exact Ho2.
Qed.

(** *** no deadlock *)
Lemma step_free m : minv m -> (forall i, i < length (m_stages m) -> answered m i) \/ exists m', machine_step E m m'.
Proof.
  intros Hm. destruct (m_locked m) eqn:Hl.
  - right. destruct (i_held _ Hm Hl) as (i & t & Hi). pose proof (i_stage _ Hm _ _ Hi) as (_ & _ & q & _ & _ & Hg & _).
    destruct (progress E Hok _ t (m_threads m) Hg (i_thr _ Hm)) as [[[[c r]|p] ->]|(thr' & t' & Hs)].
    + eexists. exists i. unfold request_step. rewrite Hi. right. left. eauto.
    + eexists. exists i. unfold request_step. rewrite Hi. right. right. exists p, (m_coll m). eauto.
    + eexists. exists i. unfold request_step. rewrite Hi. left. eauto.
  - assert (H : forall n, n <= length (m_stages m) -> (forall i, i < n -> answered m i) \/ exists m', machine_step E m m').
    { induction n as [|n IH]; intros Hn; [left; intros i Hi; lia|]. destruct IH as [IH|IH]; [lia| |right; exact IH].
      destruct (nth_error (m_stages m) n) as [st|] eqn:Hi; [|apply nth_error_None in Hi; lia]. destruct st as [q|q|t|o].
      - right. eexists. exists n. unfold request_step. rewrite Hi. reflexivity.
      - right. eexists. exists n. unfold request_step. rewrite Hi. split; [exact Hl|reflexivity].
      - pose proof (i_stage _ Hm _ _ Hi) as (Hlk & _). congruence.
      - left. intros i Hlt. destruct (Nat.eq_dec i n) as [->|Hne]; [exists o; exact Hi|apply IH; lia]. }
    apply (H _ (le_n _)).
Qed.
(** *** and no infinite execution *)
Definition rank (st : stage) : nat := match st with Received _ => 3 | Waiting _ => 2 | Running _ => 1 | Answered _ => 0 end.
Definition effort (st : stage) : nat := match st with Running t => cost E t | _ => 0 end.
Fixpoint total (f : stage -> nat) (l : list stage) : nat := match l with [] => 0 | st :: l' => f st + total f l' end.
Lemma total_update f : forall l i st0 st, nth_error l i = Some st0 -> total f (update i st l) + f st0 = total f l + f st.
Proof. induction l as [|x l IH]; intros [|i] st0 st H; cbn in *; try discriminate; [injection H as ->; lia|]. specialize (IH i st0 st H). lia. Qed.
Lemma step_down m i m' : minv m -> request_step E m i m' ->
  total rank (m_stages m') < total rank (m_stages m) \/ total rank (m_stages m') = total rank (m_stages m) /\ total effort (m_stages m') < total effort (m_stages m).
Proof.
  intros Hm. unfold request_step. destruct (nth_error (m_stages m) i) as [[q|q|t|o]|] eqn:Hi; try contradiction; pose proof (i_stage _ Hm _ _ Hi) as Hst; cbn [stage_ok] in Hst.
  - intros ->. left. cbn [m_stages m_set]. match goal with |- total _ (update _ ?st _) < _ => pose proof (total_update rank _ _ _ st Hi) as H end. destruct (prelock E q); cbn [rank] in *; lia.
  - intros [_ ->]. left. destruct (m_poison m); cbn [m_stages m_set]; match goal with |- total _ (update _ ?st _) < _ => pose proof (total_update rank _ _ _ st Hi) as H end; cbn [rank] in *; lia.
  - destruct Hst as (_ & _ & q & _ & _ & Hg & _). intros [(thr' & t' & Hs & ->)|[(c & r & -> & ->)|(p & c & -> & ->)]]; cbn [m_stages m_set].
    + right. pose proof (total_update rank _ _ _ (Running t') Hi) as H1. pose proof (total_update effort _ _ _ (Running t') Hi) as H2. cbn [rank effort] in *.
      destruct (step_ok E Hok _ _ _ _ _ Hg (i_thr _ Hm) Hs) as (_ & _ & Hc & _). lia.
    + left. pose proof (total_update rank _ _ _ (Answered (Ret r)) Hi) as H1. cbn [rank] in *. lia.
    + left. pose proof (total_update rank _ _ _ (Answered (Panic p)) Hi) as H1. cbn [rank] in *. lia.
Qed.
Lemma no_infinite : forall a b (f : nat -> machine), total rank (m_stages (f 0)) <= a -> total effort (m_stages (f 0)) <= b -> minv (f 0) -> ~ (forall n, machine_step E (f n) (f (S n))).
Proof.
  induction a as [a IHa] using lt_wf_ind. induction b as [b IHb] using lt_wf_ind. intros f Ha Hb Hm Hf.
  destruct (Hf 0) as [i Hi]. pose proof (step_inv _ _ _ Hm Hi) as Hm1. destruct (step_down _ _ _ Hm Hi) as [H|[H1 H2]].
  - apply (IHa (total rank (m_stages (f 1))) ltac:(lia) (total effort (m_stages (f 1))) (fun n => f (S n))); [lia|lia|exact Hm1|intros n; apply Hf].
  - apply (IHb (total effort (m_stages (f 1))) ltac:(lia) (fun n => f (S n))); [lia|lia|exact Hm1|intros n; apply Hf].
Qed.
End Machine.

Lemma conc_order : forall E s qs thr m m', env_ok E -> coll16 (s_coll s) -> Forall (fun q => Forall report16 (reports_in q)) qs -> (forall th, length (buf (thr th)) = 128) ->
  machine_steps E (machine_start s thr qs) m -> machine_steps E m m' ->
  (exists order, in_order E s qs m order) /\ forall order, in_order E s qs m order -> exists more, in_order E s qs m' (order ++ more).
Proof.
  intros E s qs thr m m' Hok Hc Hqs Ht H1 H2. destruct (steps_inv E Hok s qs Hqs _ _ H1 (start_inv E s qs thr Hc Ht)) as [Hm Ho]. destruct (steps_inv E Hok s qs Hqs _ _ H2 Hm) as [_ Ho2].
  split; [|exact Ho2]. destruct (Ho [] (start_order E s qs thr)) as [more H]. exists more. exact H.
Qed.
Lemma conc_ends : forall E s qs thr, env_ok E -> coll16 (s_coll s) -> Forall (fun q => Forall report16 (reports_in q)) qs -> (forall th, length (buf (thr th)) = 128) ->
  (forall m, machine_steps E (machine_start s thr qs) m -> (forall i, i < length qs -> answered m i) \/ exists m', machine_step E m m') /\
  (forall f, f 0 = machine_start s thr qs -> ~ forall n, machine_step E (f n) (f (S n))).
Proof.
  intros E s qs thr Hok Hc Hqs Ht. pose proof (start_inv E s qs thr Hc Ht) as Hm0. split.
  - intros m H. destruct (steps_inv E Hok s qs Hqs _ _ H Hm0) as [Hm _]. destruct (step_free E Hok s qs m Hm) as [Ha|Hs]; [left|right; exact Hs]. intros i Hi. apply Ha.
    enough (Hl : length (m_stages m) = length qs) by (rewrite Hl; exact Hi). clear - H. remember (machine_start s thr qs) as m0 eqn:H0. assert (Hl0 : length (m_stages m0) = length qs) by (subst; cbn; apply map_length). clear H0.
    induction H as [m|m m1 m2 [i Hi] H2 IH]; [exact Hl0|]. apply IH. rewrite <- Hl0. unfold request_step in Hi. destruct (nth_error (m_stages m) i) as [[q|q|t|o]|]; try contradiction.
    + subst m1. apply update_length.
    + destruct Hi as [_ ->]. destruct (m_poison m); apply update_length.
    + destruct Hi as [(a & b & _ & ->)|[(a & b & _ & ->)|(a & b & _ & ->)]]; apply update_length.
  - intros f Hf Hs. apply (no_infinite E Hok s qs Hqs _ _ f (le_n _) (le_n _)); [rewrite Hf; exact Hm0|exact Hs].
Qed.
Lemma conc_exclusive : forall E s qs thr m, env_ok E -> coll16 (s_coll s) -> Forall (fun q => Forall report16 (reports_in q)) qs -> (forall th, length (buf (thr th)) = 128) ->
  machine_steps E (machine_start s thr qs) m -> (forall i j, holds_lock m i -> holds_lock m j -> i = j) /\ (m_locked m = true <-> exists i, holds_lock m i).
Proof.
  intros E s qs thr m Hok Hc Hqs Ht H. destruct (steps_inv E Hok s qs Hqs _ _ H (start_inv E s qs thr Hc Ht)) as [Hm _]. split; [apply (i_one _ _ _ _ Hm)|].
  split; [apply (i_held _ _ _ _ Hm)|]. intros (i & t & Hi). apply (i_stage _ _ _ _ Hm _ _ Hi).
Qed.
