(** Proofs for C72. *)
From Verif Require Import Base BaseFacts Field Util UtilFacts Env Prg Vidpf Merkle Collect Server Driver SpecPrg PrgSpecFacts PrgSpecFacts2 VidpfFacts DriverFacts Sched SpecSched.
From Coq Require Import Lia Permutation.

(** the task run on its own, one closure after the other *)
Fixpoint alone (E : env) {A} (t : task A) : outcome A :=
  match t with
  | TDone o => o
  | TExpand key l r k => let! o := expand_dir E key l r in alone E (k o)
  | TConvert key n k => let! o := convert E key n in alone E (k o)
  | TPar n ts k => let! vs := mapM (fun i => alone E (ts i)) (seq 0 n) in alone E (k vs)
  end.
(** every generator call is on a proper seed *)
Fixpoint good (E : env) {A} (t : task A) : Prop :=
  match t with
  | TDone _ => True
  | TExpand key l r k => is_key key /\ forall o, expand_dir E key l r = Ret o -> good E (k o)
  | TConvert key n k => is_key key /\ forall o, convert E key n = Ret o -> good E (k o)
  | TPar n ts k => (forall i, i < n -> good E (ts i)) /\ forall vs, mapM (fun i => alone E (ts i)) (seq 0 n) = Ret vs -> good E (k vs)
  end.
Fixpoint sum_upto (f : nat -> nat) (n : nat) : nat := match n with O => 0 | S m => sum_upto f m + f m end.
Fixpoint cost (E : env) {A} (t : task A) : nat :=
  match t with
  | TDone _ => 0
  | TExpand key l r k => S (match expand_dir E key l r with Ret o => cost E (k o) | Panic _ => 0 end)
  | TConvert key n k => S (match convert E key n with Ret o => cost E (k o) | Panic _ => 0 end)
  | TPar n ts k => S (sum_upto (fun i => cost E (ts i)) n + match mapM (fun i => alone E (ts i)) (seq 0 n) with Ret vs => cost E (k vs) | Panic _ => 0 end)
  end.

Lemma sum_ext f g n : (forall i, i < n -> f i = g i) -> sum_upto f n = sum_upto g n.
Proof. induction n as [|n IH]; intros H; cbn; [reflexivity|]. rewrite IH, (H n) by (intros; auto with arith). reflexivity. Qed.
Lemma sum_less f g n i : i < n -> (forall j, j < n -> j <> i -> g j = f j) -> g i < f i -> sum_upto g n < sum_upto f n.
Proof.
  induction n as [|n IH]; intros Hi Hj Hlt; [lia|]. cbn. destruct (Nat.eq_dec i n) as [->|Hne].
  - rewrite (sum_ext g f n) by (intros; apply Hj; lia). lia.
  - rewrite (Hj n) by lia. assert (sum_upto g n < sum_upto f n) by (apply IH; [lia|intros; apply Hj; lia|exact Hlt]). lia.
Qed.

Lemma mapM_seq_iff {B} (f : nat -> outcome B) n vs : mapM f (seq 0 n) = Ret vs <-> length vs = n /\ forall i v, nth_error vs i = Some v -> f i = Ret v.
Proof.
  split.
  - intros H. pose proof (mapM_length _ _ _ H) as Hl. rewrite seq_length in Hl. split; [exact Hl|]. intros i v Hv.
    assert (Hi : i < n) by (rewrite <- Hl; apply nth_error_Some; congruence).
    destruct (mapM_nth f (seq 0 n) vs i i H (nth_error_seq i n 0 Hi)) as (w & Hw & Hf). congruence.
  - intros [Hl Hn]. apply mapM_ret_iff. subst n. revert f Hn. induction vs as [|v vs IH] using rev_ind; intros f Hn; [constructor|].
    rewrite app_length. cbn [length]. rewrite Nat.add_1_r, seq_S. apply Forall2_app.
    + apply IH. intros i w Hw. apply Hn. rewrite nth_error_app1; [exact Hw|]. apply nth_error_Some. congruence.
    + constructor; [|constructor]. apply Hn. cbn [plus]. rewrite nth_error_app2, Nat.sub_diag by lia. reflexivity.
Qed.
Lemma mapM_seq_some {B} (f : nat -> outcome B) n : (forall i, i < n -> exists v, f i = Ret v) -> exists vs, mapM f (seq 0 n) = Ret vs.
Proof. intros H. apply mapM_total. intros i Hi. apply in_seq in Hi. apply H. lia. Qed.
Lemma par_same {B} (f g : nat -> outcome B) n : (forall i, i < n -> same_outcome (g i) (f i)) -> same_outcome (mapM g (seq 0 n)) (mapM f (seq 0 n)).
Proof.
  intros H. destruct (mapM f (seq 0 n)) as [vs|p] eqn:Hf; cbn [same_outcome].
  - apply mapM_seq_iff in Hf. destruct Hf as [Hl Hn]. apply mapM_seq_iff. split; [exact Hl|]. intros i v Hv. pose proof (H i) as Hi. rewrite (Hn i v Hv) in Hi. apply Hi.
    rewrite <- Hl. apply nth_error_Some. congruence.
  - destruct (mapM g (seq 0 n)) as [vs|q] eqn:Hg; [|eauto]. exfalso. destruct (mapM_seq_some f n) as [ws Hw]; [|congruence].
    intros i Hi. apply mapM_seq_iff in Hg. destruct Hg as [Hl Hn]. destruct (nth_error vs i) as [v|] eqn:Hv; [|apply nth_error_None in Hv; lia].
    specialize (H i Hi). rewrite (Hn i v Hv) in H. unfold same_outcome in H. destruct (f i) as [w|q]; [eauto|]. destruct H as [? H]. discriminate.
Qed.
Lemma same_refl {A} (o : outcome A) : same_outcome o o.
Proof. destruct o; cbn; eauto. Qed.
Lemma same_trans {A} (a b c : outcome A) : same_outcome a b -> same_outcome b c -> same_outcome a c.
Proof. destruct c as [x|p]; cbn; intros H; [intros ->; exact H|]. intros [q ->]. exact H. Qed.

Definition ok_threads (thr : threads) : Prop := forall th, length (buf (thr th)) = 128.
Lemma ok_set thr th s : ok_threads thr -> length (buf s) = 128 -> ok_threads (set_thread thr th s).
Proof. intros H Hs u. unfold set_thread. destruct (u =? th); [exact Hs|apply H]. Qed.

Section Env.
Context (E : env) (Hok : env_ok E).

Lemma expand_any s key l r : is_key key -> length (buf s) = 128 -> exists s' o, expand_dir_on E s key l r = Ret (s', o) /\ expand_dir E key l r = Ret o /\ length (buf s') = 128.
Proof. intros Hk Hs. destruct (C06_expand_dir_lemma E s s key l r Hok Hk Hs Hs) as (s1 & s2 & o & H1 & _ & L & _ & H & _). eauto. Qed.
Lemma convert_any s key n : is_key key -> length (buf s) = 128 -> exists s' o, convert_on E s key n = Ret (s', o) /\ convert E key n = Ret o /\ length (buf s') = 128.
Proof. intros Hk Hs. destruct (C06_convert_lemma E s s key n Hok Hk Hs Hs) as (s1 & s2 & o & w & H1 & _ & L & _ & H & _). eauto. Qed.

Lemma step_ok : forall A (t : task A) thr thr' t', good E t -> ok_threads thr -> step E thr t thr' t' ->
  ok_threads thr' /\ good E t' /\ cost E t' < cost E t /\ same_outcome (alone E t') (alone E t).
Proof.
  intros A t. induction t as [A o|A key l r k IH|A key n k IH|A B n ts IHts k IHk]; intros thr thr' t' Hg Ht Hs; cbn [step good cost alone] in *.
  - contradiction.
  - destruct Hg as [Hk Hg]. destruct Hs as (th & Hs). destruct (expand_any (thr th) key l r Hk (Ht th)) as (s' & o & H1 & H2 & L). rewrite H1 in Hs. rewrite H2.
    destruct Hs as [(s & o' & Ho & -> & ->)|(s & p & Ho & _)]; [|discriminate]. injection Ho as <- <-. cbn [bind]. split; [apply ok_set; assumption|]. split; [apply Hg; exact H2|]. split; [lia|apply same_refl].
  - destruct Hg as [Hk Hg]. destruct Hs as (th & Hs). destruct (convert_any (thr th) key n Hk (Ht th)) as (s' & o & H1 & H2 & L). rewrite H1 in Hs. rewrite H2.
    destruct Hs as [(s & o' & Ho & -> & ->)|(s & p & Ho & _)]; [|discriminate]. injection Ho as <- <-. cbn [bind]. split; [apply ok_set; assumption|]. split; [apply Hg; exact H2|]. split; [lia|apply same_refl].
  - destruct Hg as [Hg Hk]. destruct Hs as [(i & u & Hi & Hs & ->)|[(vs & Hl & Hv & -> & ->)|(i & p & Hi & Hp & -> & ->)]].
    + destruct (IHts i thr thr' u (Hg i Hi) Ht Hs) as (Hthr & Hu & Hc & Hsame). split; [exact Hthr|].
      assert (Hpar : same_outcome (mapM (fun j => alone E (set_task ts i u j)) (seq 0 n)) (mapM (fun j => alone E (ts j)) (seq 0 n))).
      { apply par_same. intros j Hj. unfold set_task. destruct (j =? i) eqn:Hji; [apply Nat.eqb_eq in Hji; subst j; exact Hsame|apply same_refl]. }
      assert (Hgood : forall j, j < n -> good E (set_task ts i u j)) by (intros j Hj; unfold set_task; destruct (j =? i); [exact Hu|apply Hg; exact Hj]).
      assert (Hsum : sum_upto (fun j => cost E (set_task ts i u j)) n < sum_upto (fun j => cost E (ts j)) n).
      { apply (sum_less _ _ n i Hi); unfold set_task; [intros j _ Hne; rewrite (proj2 (Nat.eqb_neq j i) Hne); reflexivity|rewrite Nat.eqb_refl; exact Hc]. }
      cbn [good cost alone]. unfold same_outcome in Hpar. destruct (mapM (fun j => alone E (ts j)) (seq 0 n)) as [vs|p].
      * rewrite Hpar. cbn [bind]. split; [split; [exact Hgood|intros ws Hw; injection Hw as <-; apply Hk; reflexivity]|]. split; [lia|apply same_refl].
      * destruct Hpar as [q ->]. cbn [bind]. split; [split; [exact Hgood|discriminate]|]. split; [lia|cbn; eauto].
    + assert (Hm : mapM (fun j => alone E (ts j)) (seq 0 n) = Ret vs) by (apply mapM_seq_iff; split; [exact Hl|]; intros i v Hiv; rewrite (Hv i v Hiv); reflexivity).
      rewrite Hm. cbn [bind]. split; [exact Ht|]. split; [apply Hk; exact Hm|]. split; [lia|apply same_refl].
    + split; [exact Ht|]. split; [exact I|]. split; [cbn [cost]; lia|]. cbn [alone].
      destruct (mapM_panic_in (fun j => alone E (ts j)) (seq 0 n) i) as [q ->]; [apply in_seq; lia|rewrite Hp; cbn; eauto|]. cbn. eauto.
Qed.

Lemma progress : forall A (t : task A) thr, good E t -> ok_threads thr -> (exists o, t = TDone o) \/ exists thr' t', step E thr t thr' t'.
Proof.
  intros A t. induction t as [A o|A key l r k IH|A key n k IH|A B n ts IHts k IHk]; intros thr Hg Ht; cbn [step good] in *.
  - eauto.
  - right. destruct Hg as [Hk Hg]. destruct (expand_any (thr 0) key l r Hk (Ht 0)) as (s' & o & H1 & _). exists (set_thread thr 0 s'), (k o), 0. left. eauto.
  - right. destruct Hg as [Hk Hg]. destruct (convert_any (thr 0) key n Hk (Ht 0)) as (s' & o & H1 & _). exists (set_thread thr 0 s'), (k o), 0. left. eauto.
  - right. destruct Hg as [Hg Hk].
    assert (Hcase : (exists vs, length vs = n /\ forall i v, nth_error vs i = Some v -> ts i = TDone (Ret v)) \/ (exists i p, i < n /\ ts i = TDone (Panic p)) \/ exists i thr' u, i < n /\ step E thr (ts i) thr' u).
    { clear Hk IHk k. induction n as [|n IHn]; [left; exists []; split; [reflexivity|intros [|i] v; discriminate]|].
      destruct IHn as [(vs & Hl & Hv)|[(i & p & Hi & Hp)|(i & thr' & u & Hi & Hs)]]; [intros i Hi; apply Hg; lia| | |].
      - destruct (IHts n thr (Hg n (Nat.lt_succ_diag_r n)) Ht) as [[[v|p] Ho]|(thr' & u & Hs)].
        + left. exists (vs ++ [v]). split; [rewrite app_length; cbn; lia|]. intros i w Hw. destruct (Nat.lt_ge_cases i n) as [Hlt|Hge].
          * rewrite nth_error_app1 in Hw by lia. apply Hv. exact Hw.
          * assert (Hi : i < length (vs ++ [v])) by (apply nth_error_Some; congruence). rewrite app_length in Hi. cbn in Hi. assert (i = n) by lia. subst i.
            rewrite nth_error_app2, Hl, Nat.sub_diag in Hw by lia. cbn in Hw. congruence.
        + right. left. exists n, p. split; [lia|exact Ho].
        + right. right. exists n, thr', u. split; [lia|exact Hs].
      - right. left. exists i, p. split; [lia|exact Hp].
      - right. right. exists i, thr', u. split; [lia|exact Hs]. }
    destruct Hcase as [(vs & Hl & Hv)|[(i & p & Hi & Hp)|(i & thr' & u & Hi & Hs)]].
    + exists thr, (k vs). right. left. exists vs. auto.
    + exists thr, (TDone (Panic p)). right. right. exists i, p. auto.
    + exists thr', (TPar n (set_task ts i u) k). left. exists i, u. auto.
Qed.

Lemma steps_ok A n : forall (t : task A) thr thr' t', good E t -> ok_threads thr -> steps E n thr t thr' t' ->
  ok_threads thr' /\ good E t' /\ n + cost E t' <= cost E t /\ same_outcome (alone E t') (alone E t).
Proof.
  induction n as [|n IH]; intros t thr thr' t' Hg Ht Hs; cbn [steps] in Hs.
  - destruct Hs as [-> ->]. repeat split; auto using same_refl.
  - destruct Hs as (thr1 & t1 & H1 & Hs). destruct (step_ok A t thr thr1 t1 Hg Ht H1) as (Ht1 & Hg1 & Hc & Hsm). destruct (IH t1 thr1 thr' t' Hg1 Ht1 Hs) as (Ht2 & Hg2 & Hc2 & Hsm2).
    split; [exact Ht2|]. split; [exact Hg2|]. split; [lia|]. eapply same_trans; eassumption.
Qed.
Lemma good_free A (t : task A) : good E t -> schedule_free E t (alone E t).
Proof.
  intros Hg. exists (cost E t). intros thr Ht n thr' t' Hs. destruct (steps_ok A n t thr thr' t' Hg Ht Hs) as (Ht' & Hg' & Hc & Hsm). split; [lia|].
  destruct (progress A t' thr' Hg' Ht') as [[o ->]|H]; [left; exists o; split; [reflexivity|exact Hsm]|right; exact H].
Qed.

(** binds and parallel maps *)
Lemma alone_bind : forall A (t : task A) B (f : A -> task B), alone E (tbind t f) = let! a := alone E t in alone E (f a).
Proof.
  intros A t. induction t as [A [a|p]|A key l r k IH|A key n k IH|A C n ts _ k IH]; intros B f; cbn [tbind alone bind]; try reflexivity.
  - destruct (expand_dir E key l r); cbn [bind]; [apply IH|reflexivity].
  - destruct (convert E key n); cbn [bind]; [apply IH|reflexivity].
  - destruct (mapM _ _); cbn [bind]; [apply IH|reflexivity].
Qed.
Lemma good_bind : forall A (t : task A) B (f : A -> task B), good E t -> (forall a, alone E t = Ret a -> good E (f a)) -> good E (tbind t f).
Proof.
  intros A t. induction t as [A [a|p]|A key l r k IH|A key n k IH|A C n ts _ k IH]; intros B f Hg Hf; cbn [tbind good alone] in *.
  - apply Hf. reflexivity.
  - exact I.
  - destruct Hg as [Hk Hg]. split; [exact Hk|]. intros o Ho. apply IH; [apply Hg; exact Ho|]. intros a Ha. apply Hf. rewrite Ho. exact Ha.
  - destruct Hg as [Hk Hg]. split; [exact Hk|]. intros o Ho. apply IH; [apply Hg; exact Ho|]. intros a Ha. apply Hf. rewrite Ho. exact Ha.
  - destruct Hg as [Hk Hg]. split; [exact Hk|]. intros o Ho. apply IH; [apply Hg; exact Ho|]. intros a Ha. apply Hf. rewrite Ho. exact Ha.
Qed.
Lemma alone_par A B (f : nat -> A -> task B) l : alone E (par_mapi f l) = mapMi (fun i a => alone E (f i a)) 0 l.
Proof.
  unfold par_mapi. cbn [alone].
  assert (H : forall l2 l1, l = l1 ++ l2 -> mapM (fun i => alone E match nth_error l i with Some a => f i a | None => TDone (Panic PIndex) end) (seq (length l1) (length l2)) = mapMi (fun i a => alone E (f i a)) (length l1) l2).
  { induction l2 as [|a l2 IH]; intros l1 ->; [reflexivity|]. cbn [length seq mapM mapMi]. rewrite nth_error_app2, Nat.sub_diag by lia. cbn [nth_error].
    specialize (IH (l1 ++ [a])). rewrite <- app_assoc in IH. specialize (IH eq_refl). rewrite app_length in IH. cbn [length] in IH. rewrite Nat.add_1_r in IH. rewrite IH. reflexivity. }
  specialize (H l [] eq_refl). cbn [length] in H. rewrite H. destruct (mapMi _ 0 l); reflexivity.
Qed.
Lemma good_par A B (f : nat -> A -> task B) l : (forall i a, nth_error l i = Some a -> good E (f i a)) -> good E (par_mapi f l).
Proof. intros H. unfold par_mapi. cbn [good]. split; [|exact (fun _ _ => I)]. intros i Hi. destruct (nth_error l i) as [a|] eqn:Ha; [apply H; exact Ha|exact I]. Qed.
End Env.
