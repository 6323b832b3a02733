(** Proofs for C64. *)
From Verif Require Import Base BaseFacts Util PrgStream SpecPrgStream.
From Coq Require Import Lia.
Local Open Scope nat_scope.

Section KEY.
Variable aes : bytes -> bytes -> bytes.
Variable key : bytes.
Hypothesis AES : aes_blocks aes key.

Definition blk (j : nat) : bytes := aes key (le_bytes 16 (N.of_nat j mod 2 ^ 128)%N).

Lemma le_bytes_len n : forall x, length (le_bytes n x) = n.
Proof. induction n; intros; cbn [le_bytes]; [reflexivity|]. cbn. now rewrite IHn. Qed.

Lemma blk_len j : length (blk j) = 16.
Proof. apply AES. apply le_bytes_len. Qed.

(** the state after [pos] bytes: [j] blocks generated, the rest of the last one left *)
Definition at_pos (pos : nat) (s : prg_stream) : Prop :=
  ps_key s = key /\
  exists j, pos <= 16 * j < pos + 16 /\ ps_ctr s = (N.of_nat j mod 2 ^ 128)%N /\
            (pos < 16 * j -> ps_left s = skipn (16 + pos - 16 * j) (blk (j - 1))) /\
            (pos = 16 * j -> ps_left s = []).

Lemma to_rng_at : at_pos 0 (to_rng key).
Proof.
  split; [reflexivity|]. exists 0. split; [lia|]. split; [reflexivity|]. split; [lia|reflexivity].
Qed.

Lemma skipn_hd {A} (d : A) : forall l n, n < length l -> skipn n l = nth n l d :: skipn (S n) l.
Proof.
  induction l; intros n H; cbn in H; [lia|]. destruct n; [reflexivity|].
  cbn [skipn nth]. rewrite IHl by lia. reflexivity.
Qed.

Lemma ctr_succ j : ((N.of_nat j mod 2 ^ 128 + 1) mod 2 ^ 128 = N.of_nat (S j) mod 2 ^ 128)%N.
Proof.
  rewrite Nnat.Nat2N.inj_succ, <- N.add_1_r, N.add_mod_idemp_l by discriminate. reflexivity.
Qed.

Lemma next_at pos s : at_pos pos s ->
  exists s', ps_next aes s = (s', ctr_byte aes key pos) /\ at_pos (S pos) s'.
Proof.
  intros [K (j & J & C & L & L0)]. unfold ps_next.
  destruct (Nat.eq_dec pos (16 * j)) as [E|E].
  - rewrite (L0 E), K, C. fold (blk j). cbn [fst snd].
    pose proof (blk_len j) as BL.
    assert (D : pos / 16 = j) by (symmetry; apply (Nat.div_unique _ _ _ 0); lia).
    assert (M : pos mod 16 = 0) by (symmetry; apply (Nat.mod_unique _ _ j); lia).
    eexists. split.
    + f_equal. unfold ctr_byte. rewrite D, M. fold (blk j). now destruct (blk j).
    + split; [reflexivity|]. exists (S j). cbn [ps_ctr ps_left]. split; [lia|].
      split; [now rewrite ctr_succ|]. split; [|lia]. intros _.
      replace (S j - 1) with j by lia. replace (16 + S pos - 16 * S j) with 1 by lia.
      now destruct (blk j).
  - assert (P : pos < 16 * j) by lia. specialize (L P).
    pose proof (blk_len (j - 1)) as BL.
    rewrite (skipn_hd 0%N) in L by lia. rewrite L. cbn [tl hd fst snd].
    assert (D : pos / 16 = j - 1) by (symmetry; apply (Nat.div_unique _ _ _ (16 + pos - 16 * j)); lia).
    assert (M : pos mod 16 = 16 + pos - 16 * j) by (symmetry; apply (Nat.mod_unique _ _ (j - 1)); lia).
    eexists. split.
    + f_equal. unfold ctr_byte. rewrite D, M. reflexivity.
    + split; [exact K|]. exists j. cbn [ps_ctr ps_left]. split; [lia|]. split; [exact C|]. split.
      * intros _. f_equal. lia.
      * intros Q. rewrite skipn_all2; [reflexivity|]. lia.
Qed.

Definition xor2 (a b : bytes) : bytes := map (fun p => N.lxor (fst p) (snd p)) (combine a b).

Lemma apply_at : forall dest pos s, at_pos pos s ->
  exists s', apply_keystream aes s dest = (s', xor2 dest (ctr_bytes aes key pos (length dest))) /\
             at_pos (pos + length dest) s'.
Proof.
  induction dest as [|d dest IH]; intros pos s A; cbn [apply_keystream length].
  - exists s. split; [reflexivity|]. now rewrite Nat.add_0_r.
  - destruct (next_at pos s A) as (s1 & E1 & A1). rewrite E1.
    destruct (IH _ _ A1) as (s2 & E2 & A2). rewrite E2.
    exists s2. split; [reflexivity|]. now rewrite Nat.add_succ_r.
Qed.

Lemma xor2_zero : forall n b, length b = n -> xor2 (repeat 0%N n) b = b.
Proof.
  unfold xor2. induction n; intros [|x b] H; try discriminate; [reflexivity|].
  cbn. f_equal. apply IHn. now inversion H.
Qed.
Lemma ctr_bytes_len from n : length (ctr_bytes aes key from n) = n.
Proof. unfold ctr_bytes. now rewrite map_length, seq_length. Qed.

Lemma fill_at debug dest pos s : at_pos pos s -> (debug = false \/ Forall (fun v => v = 0%N) dest) ->
  exists s', ps_fill debug aes s dest = Ret (s', xor2 dest (ctr_bytes aes key pos (length dest))) /\
             at_pos (pos + length dest) s'.
Proof.
  intros A B. destruct (apply_at dest pos s A) as (s' & E & A'). exists s'. split; [|exact A'].
  unfold ps_fill, debug_assert. destruct B as [->|B].
  - cbn [bind]. now rewrite E.
  - replace (forallb _ dest) with true.
    + destruct debug; cbn [bind]; now rewrite E.
    + symmetry. apply forallb_forall. intros x H. rewrite Forall_forall in B. now rewrite (B x H).
Qed.
Lemma fill_panics dest s : ~ Forall (fun v => v = 0%N) dest ->
  ps_fill true aes s dest = Panic PDebugAssert.
Proof.
  intros B. unfold ps_fill, debug_assert. destruct (forallb _ dest) eqn:F; [|reflexivity].
  destruct B. rewrite forallb_forall in F. apply Forall_forall. intros x H. specialize (F x H).
  now apply N.eqb_eq.
Qed.

Lemma zeros n : Forall (fun v => v = 0%N) (repeat 0%N n).
Proof. apply Forall_forall. intros x H. now apply repeat_spec in H. Qed.

Lemma draw1_at debug d pos s : at_pos pos s -> (debug = false \/ blank d) ->
  exists s', draw1 debug aes s d = Ret (s', result_of d (ctr_bytes aes key pos (length (before d)))) /\
             at_pos (pos + length (before d)) s'.
Proof.
  intros A B. destruct d as [b|b| |]; cbn [draw1 before]; unfold ps_try_fill, ps_next_u32, ps_next_u64.
  - destruct (fill_at debug b pos s A B) as (s' & E & A'). rewrite E. cbn [bind]. eauto.
  - destruct (fill_at debug b pos s A B) as (s' & E & A'). rewrite E. cbn [bind]. eauto.
  - destruct (fill_at debug (repeat 0%N 4) pos s A (or_intror (zeros 4))) as (s' & E & A').
    rewrite E. cbn [bind]. rewrite xor2_zero by apply ctr_bytes_len. eauto.
  - destruct (fill_at debug (repeat 0%N 8) pos s A (or_intror (zeros 8))) as (s' & E & A').
    rewrite E. cbn [bind]. rewrite xor2_zero by apply ctr_bytes_len. eauto.
Qed.

Lemma draws_at debug : forall ds pos s, at_pos pos s -> (debug = false \/ Forall blank ds) ->
  exists s', draws debug aes s ds = Ret (s', results aes key pos ds).
Proof.
  induction ds as [|d ds IH]; intros pos s A B; cbn [draws results]; [eauto|].
  destruct (draw1_at debug d pos s A) as (s1 & E1 & A1).
  { destruct B as [B|B]; [now left|right]. now inversion B. }
  rewrite E1. cbn [bind].
  destruct (IH _ _ A1) as (s2 & E2). { destruct B as [B|B]; [now left|right]. now inversion B. }
  rewrite E2. cbn [bind]. eauto.
Qed.

Lemma blank_dec d : {blank d} + {~ blank d}.
Proof. unfold blank. apply Forall_dec. intros x. apply N.eq_dec. Qed.

Lemma draws_panic : forall ds pos s, at_pos pos s -> ~ Forall blank ds ->
  draws true aes s ds = Panic PDebugAssert.
Proof.
  induction ds as [|d ds IH]; intros pos s A B; [now destruct B|]. cbn [draws].
  destruct (blank_dec d) as [Y|N].
  - destruct (draw1_at true d pos s A (or_intror Y)) as (s1 & E1 & A1). rewrite E1. cbn [bind].
    rewrite (IH _ _ A1); [reflexivity|]. intros Q. apply B. now constructor.
  - destruct d as [b|b| |]; cbn [draw1]; unfold ps_try_fill.
    + rewrite fill_panics; [reflexivity|exact N].
    + rewrite fill_panics; [reflexivity|exact N].
    + destruct N. apply zeros.
    + destruct N. apply zeros.
Qed.

Lemma C64_draws_lemma debug ds : debug = false \/ Forall blank ds ->
  exists s', draws debug aes (to_rng key) ds = Ret (s', results aes key 0 ds).
Proof. apply draws_at. apply to_rng_at. Qed.

Lemma C64_debug_lemma ds : ~ Forall blank ds ->
  draws true aes (to_rng key) ds = Panic PDebugAssert.
Proof. apply (draws_panic ds 0). apply to_rng_at. Qed.

Lemma xor2_cancel : forall a b k, length a = length b -> length k = length a -> xor2 a k = xor2 b k -> a = b.
Proof.
  unfold xor2. induction a; intros [|y b] [|z k] L1 L2 E; try discriminate; [reflexivity|].
  cbn in E. injection E as E1 E2. f_equal.
  - apply (f_equal (fun v => N.lxor v z)) in E1.
    now rewrite !N.lxor_assoc, N.lxor_nilpotent, !N.lxor_0_r in E1.
  - apply (IHa b k); [now inversion L1|now inversion L2|exact E2].
Qed.

Lemma C64_refuted_lemma ds a b : length a = length b -> a <> b ->
  exists s1 s2 gs x y,
    draws false aes (to_rng key) (ds ++ [Fill a]) = Ret (s1, gs ++ [Bytes x]) /\
    draws false aes (to_rng key) (ds ++ [Fill b]) = Ret (s2, gs ++ [Bytes y]) /\ x <> y.
Proof.
  intros L N.
  destruct (C64_draws_lemma false (ds ++ [Fill a]) (or_introl eq_refl)) as (s1 & E1).
  destruct (C64_draws_lemma false (ds ++ [Fill b]) (or_introl eq_refl)) as (s2 & E2).
  assert (R : forall ds pos d, results aes key pos (ds ++ [d]) =
            results aes key pos ds ++
            [result_of d (ctr_bytes aes key (pos + length (concat (map before ds))) (length (before d)))]).
  { induction ds0 as [|d0 ds0 IH]; intros pos d; cbn [app results map concat].
    - cbn. now rewrite Nat.add_0_r.
    - rewrite IH. rewrite app_length, Nat.add_assoc. reflexivity. }
  rewrite R in E1, E2. cbn [before result_of] in E1, E2. rewrite <- L in E2.
  exists s1, s2. do 3 eexists. split; [exact E1|]. split; [exact E2|].
  intros Q. apply N. eapply xor2_cancel; [exact L| |exact Q]. apply ctr_bytes_len.
Qed.
End KEY.
