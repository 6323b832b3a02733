(** Lemmas about the vocabulary of Base.v. *)
From Verif Require Import Base.
From Coq Require Export ZifyBool ZifyN ZifyNat.

Lemma bind_ret_inv {A B} (m : outcome A) (k : A -> outcome B) b :
  bind m k = Ret b -> exists a, m = Ret a /\ k a = Ret b.
Proof. destruct m; cbn; intros H; [eauto | discriminate]. Qed.

Lemma bind_panic_inv {A B} (m : outcome A) (k : A -> outcome B) p :
  bind m k = Panic p -> m = Panic p \/ exists a, m = Ret a /\ k a = Panic p.
Proof. destruct m; cbn; intros H; [eauto | left; congruence]. Qed.

(** invert a successful monadic computation step by step *)
Ltac inv_ret H :=
  match type of H with
  | bind _ _ = Ret _ =>
      let a := fresh "a" in let H1 := fresh "H" in
      apply bind_ret_inv in H; destruct H as (a & H1 & H)
  end.

Tactic Notation "bret" hyp(H) "as" simple_intropattern(p) simple_intropattern(q) :=
  apply bind_ret_inv in H; destruct H as (p & q & H).

Lemma index_some {A} (l : list A) i a : nth_error l i = Some a -> index l i = Ret a.
Proof. unfold index. intros ->. reflexivity. Qed.
Lemma index_ret {A} (l : list A) i a : index l i = Ret a <-> nth_error l i = Some a.
Proof. unfold index. destruct (nth_error l i); split; congruence. Qed.
Lemma index_panic {A} (l : list A) i : length l <= i -> index l i = Panic PIndex.
Proof. intros H. unfold index. rewrite (proj2 (nth_error_None l i) H). reflexivity. Qed.
Lemma index_nth {A} (l : list A) i d : i < length l -> index l i = Ret (nth i l d).
Proof. intros H. apply index_ret. apply nth_error_nth'. exact H. Qed.
Lemma assert_ret b u : assert_ b = Ret u -> b = true.
Proof. unfold assert_. destruct b; [reflexivity|discriminate]. Qed.
Lemma assert_true b : assert_ b = Ret tt <-> b = true.
Proof. destruct b; cbn; split; congruence. Qed.
Lemma debug_assert_true d b : b = true -> debug_assert d b = Ret tt.
Proof. intros ->. destruct d; reflexivity. Qed.
Lemma debug_assert_ret d b u : debug_assert d b = Ret u -> d = true -> b = true.
Proof. intros H ->. cbn in H. destruct b; congruence. Qed.
Lemma unwrap_ret {A} (o : option A) a : unwrap o = Ret a <-> o = Some a.
Proof. destruct o; cbn; split; congruence. Qed.

Lemma mapM_ext {A B} (f g : A -> outcome B) l : (forall a, In a l -> f a = g a) -> mapM f l = mapM g l.
Proof.
  induction l as [|a l IH]; intros H; cbn; [reflexivity|].
  rewrite (H a) by (left; reflexivity). rewrite IH by (intros; apply H; right; assumption). reflexivity.
Qed.

Lemma mapM_ret {A B} (f : A -> outcome B) (g : A -> B) l :
  (forall a, In a l -> f a = Ret (g a)) -> mapM f l = Ret (map g l).
Proof.
  induction l as [|a l IH]; intros H; cbn; [reflexivity|].
  rewrite (H a) by (left; reflexivity). cbn. rewrite IH by (intros; apply H; right; assumption). reflexivity.
Qed.

Lemma mapM_inv {A B} (f : A -> outcome B) l r :
  mapM f l = Ret r -> Forall2 (fun a b => f a = Ret b) l r.
Proof.
  revert r. induction l as [|a l IH]; cbn; intros r H.
  - injection H as <-. constructor.
  - inv_ret H. inv_ret H. injection H as <-. constructor; auto.
Qed.
Lemma mapM_intro {A B} (f : A -> outcome B) l r :
  Forall2 (fun a b => f a = Ret b) l r -> mapM f l = Ret r.
Proof. induction 1; cbn; [reflexivity|]. rewrite H, IHForall2. reflexivity. Qed.

Lemma Forall2_len {A B} (R : A -> B -> Prop) l1 l2 : Forall2 R l1 l2 -> length l1 = length l2.
Proof. induction 1; cbn; auto. Qed.

Lemma mapM_length {A B} (f : A -> outcome B) l r : mapM f l = Ret r -> length r = length l.
Proof. intros H. apply mapM_inv in H. symmetry. eapply Forall2_len; eassumption. Qed.

Lemma Forall2_nth {A B} (R : A -> B -> Prop) l1 l2 :
  Forall2 R l1 l2 <->
  (length l1 = length l2 /\ forall i a b, nth_error l1 i = Some a -> nth_error l2 i = Some b -> R a b).
Proof.
  split.
  - induction 1 as [|a b l1 l2 Hab H [IHl IH]]; cbn; split; auto.
    + intros [|i]; cbn; discriminate.
    + intros [|i] a' b'; cbn.
      * intros [= <-] [= <-]. exact Hab.
      * apply IH.
  - revert l2. induction l1 as [|a l1 IH]; intros [|b l2] [Hl H]; cbn in Hl; try discriminate; constructor.
    + exact (H 0 a b eq_refl eq_refl).
    + apply IH. split; [lia|]. intros i. exact (H (S i)).
Qed.

Lemma mapM_nth {A B} (f : A -> outcome B) l r i a :
  mapM f l = Ret r -> nth_error l i = Some a -> exists b, nth_error r i = Some b /\ f a = Ret b.
Proof.
  intros H Ha. pose proof (mapM_length _ _ _ H) as Hl. apply mapM_inv, Forall2_nth in H. destruct H as [_ H].
  destruct (nth_error r i) eqn:Hb.
  - eauto.
  - apply nth_error_None in Hb. assert (i < length l) by (apply nth_error_Some; congruence). lia.
Qed.

Lemma mapMi_inv {A B} (f : nat -> A -> outcome B) l : forall i r,
  mapMi f i l = Ret r ->
  length r = length l /\
  forall j a, nth_error l j = Some a -> exists b, nth_error r j = Some b /\ f (i + j) a = Ret b.
Proof.
  induction l as [|a l IH]; cbn; intros i r H.
  - injection H as <-. split; [reflexivity|]. intros [|j]; cbn; discriminate.
  - inv_ret H. inv_ret H. injection H as <-. apply IH in H1. destruct H1 as [Hl H1]. cbn. split; [lia|].
    intros [|j] x; cbn.
    + intros [= <-]. exists a0. rewrite Nat.add_0_r. auto.
    + intros Hx. destruct (H1 j x Hx) as (b & Hb & Hf). exists b. split; [exact Hb|].
      rewrite <- Hf. f_equal. lia.
Qed.

Lemma mapMi_intro {A B} (f : nat -> A -> outcome B) l : forall i r,
  length r = length l ->
  (forall j a b, nth_error l j = Some a -> nth_error r j = Some b -> f (i + j) a = Ret b) ->
  mapMi f i l = Ret r.
Proof.
  induction l as [|a l IH]; cbn; intros i [|b r] Hl H; try discriminate.
  - reflexivity.
  - rewrite (eq_sym (Nat.add_0_r i)) at 1. rewrite (H 0 a b eq_refl eq_refl). cbn.
    rewrite (IH (S i) r); [reflexivity | cbn in Hl; lia |].
    intros j x y Hx Hy. specialize (H (S j) x y Hx Hy). rewrite <- H. f_equal. lia.
Qed.

Lemma mapMi_ext {A B} (f g : nat -> A -> outcome B) l : forall i,
  (forall j a, nth_error l j = Some a -> f (i + j) a = g (i + j) a) -> mapMi f i l = mapMi g i l.
Proof.
  induction l as [|a l IH]; intros i H; cbn; [reflexivity|].
  pose proof (H 0 a eq_refl) as H0. rewrite Nat.add_0_r in H0. rewrite H0.
  rewrite (IH (S i)); [reflexivity|]. intros j b Hb. specialize (H (S j) b Hb).
  rewrite <- Nat.add_succ_comm in H. exact H.
Qed.

(** totality: if every element succeeds the loop succeeds *)
Lemma mapM_total {A B} (f : A -> outcome B) l :
  (forall a, In a l -> exists b, f a = Ret b) -> exists r, mapM f l = Ret r.
Proof.
  induction l as [|a l IH]; intros H; cbn; [eauto|].
  destruct (H a (or_introl eq_refl)) as [b Hb]. rewrite Hb. cbn.
  destruct IH as [r Hr]; [intros; apply H; right; assumption|]. rewrite Hr. cbn. eauto.
Qed.
Lemma mapMi_total {A B} (f : nat -> A -> outcome B) l : forall i,
  (forall j a, nth_error l j = Some a -> exists b, f (i + j) a = Ret b) -> exists r, mapMi f i l = Ret r.
Proof.
  induction l as [|a l IH]; intros i H; cbn; [eauto|].
  destruct (H 0 a eq_refl) as [b Hb]. rewrite Nat.add_0_r in Hb. rewrite Hb. cbn.
  destruct (IH (S i)) as [r Hr].
  { intros j x Hx. destruct (H (S j) x Hx) as [y Hy]. exists y. rewrite <- Hy. f_equal. lia. }
  rewrite Hr. cbn. eauto.
Qed.

Lemma foldM_app {A S} (f : S -> A -> outcome S) l1 : forall s l2,
  foldM f s (l1 ++ l2) = bind (foldM f s l1) (fun s' => foldM f s' l2).
Proof.
  induction l1 as [|a l1 IH]; intros s l2; cbn; [reflexivity|].
  destruct (f s a); cbn; [apply IH | reflexivity].
Qed.
Lemma foldM_ext {A S} (f g : S -> A -> outcome S) l : forall s,
  (forall s a, In a l -> f s a = g s a) -> foldM f s l = foldM g s l.
Proof.
  induction l as [|a l IH]; intros s H; cbn; [reflexivity|].
  rewrite (H s a) by (left; reflexivity). destruct (g s a); cbn; [|reflexivity].
  apply IH. intros. apply H. right; assumption.
Qed.
Lemma foldM_ret {A S} (f : S -> A -> outcome S) (g : S -> A -> S) l : forall s,
  (forall s a, In a l -> f s a = Ret (g s a)) -> foldM f s l = Ret (fold_left g l s).
Proof.
  induction l as [|a l IH]; intros s H; cbn; [reflexivity|].
  rewrite (H s a) by (left; reflexivity). cbn. apply IH. intros. apply H. right; assumption.
Qed.

Lemma list_eqb_eq {A} (eqb : A -> A -> bool) (H : forall a b, eqb a b = true <-> a = b) l1 :
  forall l2, list_eqb eqb l1 l2 = true <-> l1 = l2.
Proof.
  induction l1 as [|a l1 IH]; intros [|b l2]; cbn; try (split; congruence).
  rewrite andb_true_iff, H, IH. split; [intros [-> ->]; reflexivity | intros [= -> ->]; auto].
Qed.
Lemma bytes_eqb_eq l1 l2 : bytes_eqb l1 l2 = true <-> l1 = l2.
Proof. apply list_eqb_eq. apply N.eqb_eq. Qed.
Lemma bytes_eqb_refl l : bytes_eqb l l = true.
Proof. apply bytes_eqb_eq. reflexivity. Qed.
Lemma path_eqb_eq l1 l2 : path_eqb l1 l2 = true <-> l1 = l2.
Proof. apply list_eqb_eq. intros a b. destruct a, b; cbn; split; congruence. Qed.

Lemma update_length {A} i (a : A) l : length (update i a l) = length l.
Proof. revert i. induction l as [|x l IH]; intros [|i]; cbn; auto. Qed.
Lemma update_nth_eq {A} i (a : A) l : i < length l -> nth_error (update i a l) i = Some a.
Proof.
  revert i. induction l as [|x l IH]; intros [|i]; cbn; intros; try lia; [reflexivity|]. apply IH. lia.
Qed.
Lemma update_nth_neq {A} i j (a : A) l : i <> j -> nth_error (update i a l) j = nth_error l j.
Proof.
  revert i j. induction l as [|x l IH]; intros [|i] [|j]; cbn; intros; try reflexivity; try congruence.
  apply IH. lia.
Qed.
Lemma update_oob {A} i (a : A) l : length l <= i -> update i a l = l.
Proof.
  revert i. induction l as [|x l IH]; intros [|i]; cbn; intros; try lia; try reflexivity. f_equal. apply IH. lia.
Qed.

Lemma nth_error_ext {A} (l1 l2 : list A) : (forall i, nth_error l1 i = nth_error l2 i) -> l1 = l2.
Proof.
  revert l2. induction l1 as [|a l1 IH]; intros [|b l2] H.
  - reflexivity.
  - specialize (H 0); discriminate.
  - specialize (H 0); discriminate.
  - pose proof (H 0) as H0. cbn in H0. injection H0 as ->. f_equal. apply IH. intros i. exact (H (S i)).
Qed.

Lemma nth_error_map' {A B} (f : A -> B) l i : nth_error (map f l) i = option_map f (nth_error l i).
Proof. revert i. induction l as [|a l IH]; intros [|i]; cbn; auto. Qed.

Lemma nth_error_seq i n s : i < n -> nth_error (seq s n) i = Some (s + i).
Proof.
  revert i s. induction n as [|n IH]; intros [|i] s H; try lia; cbn.
  - f_equal. lia.
  - rewrite IH by lia. f_equal. lia.
Qed.

Lemma nth_error_combine {A B} (l1 : list A) (l2 : list B) i :
  nth_error (combine l1 l2) i =
  match nth_error l1 i, nth_error l2 i with Some a, Some b => Some (a, b) | _, _ => None end.
Proof.
  revert l2 i. induction l1 as [|a l1 IH]; intros [|b l2] [|i]; cbn; try reflexivity.
  - destruct (nth_error l1 i); reflexivity.
  - apply IH.
Qed.

Lemma nth_error_firstn {A} (l : list A) n i :
  nth_error (firstn n l) i = if i <? n then nth_error l i else None.
Proof.
  revert l i. induction n as [|n IH]; intros l i; cbn [firstn].
  - destruct i; reflexivity.
  - destruct l as [|a l]; [destruct i; destruct (_ <? _); reflexivity|].
    destruct i as [|i]; [reflexivity|]. cbn [nth_error]. rewrite IH.
    change (S i <? S n) with (i <? n). reflexivity.
Qed.
Lemma nth_error_skipn {A} (l : list A) n i : nth_error (skipn n l) i = nth_error l (n + i).
Proof.
  revert l. induction n as [|n IH]; intros l; [reflexivity|].
  destruct l as [|a l]; [destruct i; reflexivity|]. apply IH.
Qed.

Lemma le_bytes_S n x : le_bytes (S n) x = (x mod 256)%N :: le_bytes n (x / 256)%N.
Proof. cbn [le_bytes]. change 255%N with (N.ones 8). rewrite N.land_ones, N.shiftr_div_pow2. reflexivity. Qed.
Lemma le_num_bytes n : forall x, (x < 256 ^ N.of_nat n)%N -> le_num (le_bytes n x) = x.
Proof.
  induction n as [|n IH]; intros x H.
  - cbn in *. lia.
  - rewrite le_bytes_S. cbn [le_num]. rewrite IH.
    + symmetry. rewrite N.add_comm. apply N.div_mod. discriminate.
    + apply N.div_lt_upper_bound; [discriminate|].
      rewrite Nat2N.inj_succ, N.pow_succ_r' in H. exact H.
Qed.
Lemma le_bytes_length n x : length (le_bytes n x) = n.
Proof. revert x. induction n as [|n IH]; intros x; cbn; auto. Qed.
Lemma le_bytes_num b : Forall (fun x => (x < 256)%N) b -> le_bytes (length b) (le_num b) = b.
Proof.
  induction 1 as [|x b Hx Hb IH]; [reflexivity|].
  cbn [length le_num]. rewrite le_bytes_S. f_equal.
  - rewrite N.mul_comm, N.mod_add by discriminate. apply N.mod_small. exact Hx.
  - rewrite N.mul_comm, N.div_add by discriminate. rewrite N.div_small by exact Hx. rewrite N.add_0_l. exact IH.
Qed.
Lemma le_bytes_inj n x y :
  (x < 256 ^ N.of_nat n)%N -> (y < 256 ^ N.of_nat n)%N -> le_bytes n x = le_bytes n y -> x = y.
Proof. intros Hx Hy H. rewrite <- (le_num_bytes n x Hx), <- (le_num_bytes n y Hy), H. reflexivity. Qed.
Lemma skipn_skipn' {A} x y (l : list A) : skipn x (skipn y l) = skipn (x + y) l.
Proof.
  apply nth_error_ext. intros i. rewrite !nth_error_skipn. f_equal. lia.
Qed.
Lemma forallb_false {A} (f : A -> bool) l : forallb f l = false -> exists a, In a l /\ f a = false.
Proof.
  induction l as [|a l IH]; cbn; [discriminate|]. destruct (f a) eqn:H; [|eauto].
  intros H'. destruct (IH H') as (b & Hb & Hf). eauto.
Qed.
