(** Proof of the converse of C05: consistent trees give equal transcripts, for arbitrary keys. *)
From Verif Require Import Base BaseFacts Field Util UtilFacts Env Prg PrgFacts PrgSpecFacts PrgSpecFacts2 Vidpf SpecPrg SpecVidpf SpecTree
  VidpfFacts VidpfEvalFacts VidpfTreeFacts VidpfTreeFacts2 VidpfTreeFacts3.

Section Pair.
Variable E : env.
Hypothesis Hok : env_ok E.
Variables k0 k1 : vidpf_key.
Variable len : nat.
Hypothesis Hty0 : key_typed k0.
Hypothesis Hty1 : key_typed k1.
Hypothesis Hi0 : key_idx k0 = false.
Hypothesis Hi1 : key_idx k1 = true.

Lemma word0 q s x : evals E k0 len q s (Some x) -> length x = len + 1.
Proof. intros H. destruct (evals_typed E Hok k0 len Hty0 _ _ _ H) as [_ Hl]. apply Hl. reflexivity. Qed.
Lemma word1 q s x : evals E k1 len q s (Some x) -> length x = len + 1.
Proof. intros H. destruct (evals_typed E Hok k1 len Hty1 _ _ _ H) as [_ Hl]. apply Hl. reflexivity. Qed.

Lemma eval_tree_complete paths tr v0 b0 t0 v1 b1 t1 :
  eval_tree E k0 paths len tr = Ret (v0, b0, t0) -> eval_tree E k1 paths len tr = Ret (v1, b1, t1) ->
  (forall path q w0 l0 r0 w1 l1 r1 a b c a' b' c', In path paths -> q <> [] -> proper_prefix q path ->
     share_at E k0 len q = Ret (w0, a) -> share_at E k0 len (q ++ [false]) = Ret (l0, b) -> share_at E k0 len (q ++ [true]) = Ret (r0, c) ->
     share_at E k1 len q = Ret (w1, a') -> share_at E k1 len (q ++ [false]) = Ret (l1, b') -> share_at E k1 len (q ++ [true]) = Ret (r1, c') ->
     vec_add w0 w1 = vec_add (vec_add l0 l1) (vec_add r0 r1)) ->
  (forall l0 r0 l1 r1 a b a' b',
     share_at E k0 len [false] = Ret (l0, a) -> share_at E k0 len [true] = Ret (r0, b) ->
     share_at E k1 len [false] = Ret (l1, a') -> share_at E k1 len [true] = Ret (r1, b') ->
     nth_error (vec_add (vec_add l0 r0) (vec_add l1 r1)) len = Some (of_Z 1)) ->
  (forall path w0 pf0 w1 pf1, In path paths -> share_at E k0 len path = Ret (w0, pf0) -> share_at E k1 len path = Ret (w1, pf1) -> pf0 = pf1) ->
  t0 = t1.
Proof.
  intros H0 H1 Hsum Hroot Hprfs.
  destruct (eval_tree_pair E Hok k0 k1 len Hty0 Hty1 Hi0 Hi1 _ _ _ _ _ _ _ _ H0 H1) as
    (n0 & n1 & sts0 & sts1 & L0 & l0 & R0 & r0 & L1 & l1 & R1 & r1 & c0 & c1 & z0 & z1 &
     Hn0 & Hn1 & Hs & Hop & Hf0 & Hf1 & Hls0 & Hls1 & HL0 & HR0 & HL1 & HR1 & Hb0 & Hb1 & Hz0 & Hz1 & Ht0 & Ht1 & Hcl & _ & Hag).
  pose proof (Forall2_len _ _ _ Hf0) as Hlen0. pose proof (Forall2_len _ _ _ Hf1) as Hlen1.
  rewrite combine_length in Hlen0, Hlen1.
  apply Forall2_nth in Hf0, Hf1. destruct Hf0 as [_ Hf0], Hf1 as [_ Hf1].
  assert (Hprf : map es_proof sts0 = map es_proof sts1).
  { apply nth_error_ext. intros i. rewrite !nth_error_map'.
    destruct (nth_error paths i) as [path|] eqn:Hpi.
    - assert (i < length paths) by (apply nth_error_Some; congruence).
      destruct (nth_error sts0 i) as [s0|] eqn:Hs0; [|apply nth_error_None in Hs0; lia].
      destruct (nth_error sts1 i) as [s1|] eqn:Hs1; [|apply nth_error_None in Hs1; lia].
      destruct (nth_error v0 i) as [w0|] eqn:Hv0; [|apply nth_error_None in Hv0; lia].
      destruct (nth_error v1 i) as [w1|] eqn:Hv1; [|apply nth_error_None in Hv1; lia].
      cbn [option_map]. f_equal. apply (Hprfs path w0 _ w1 _).
      + eapply nth_error_In; exact Hpi.
      + apply evals_share_at. apply (Hf0 i path (s0, w0) Hpi). rewrite nth_error_combine, Hs0, Hv0. reflexivity.
      + apply evals_share_at. apply (Hf1 i path (s1, w1) Hpi). rewrite nth_error_combine, Hs1, Hv1. reflexivity.
    - apply nth_error_None in Hpi. rewrite !(proj2 (nth_error_None _ i)) by lia. reflexivity. }
  assert (Hc : c0 = c1).
  { apply Hag; [|exact Hprf].
    intros path Hin q s0 x0 sl0 y0 sr0 u0 s1 x1 sl1 y1 sr1 u1 (p & s & Hs' & Hu & Hq) X0 Y0 U0 X1 Y1 U1. cbn [app] in Hq. subst q.
    unfold check, sgn. rewrite Hi0, Hi1.
    assert (Hne : p <> []). { intros ->. apply (evals_none E len k0) in X0. destruct X0 as [_ X0]. discriminate (X0 eq_refl). }
    apply (check_sum _ _ _ _ _ _ (len + 1)); [eapply word0; eassumption|eapply word0; eassumption|eapply word0; eassumption|eapply word1; eassumption|eapply word1; eassumption|eapply word1; eassumption|].
    eapply (Hsum path p); [exact Hin|exact Hne|exists s; split; assumption|apply evals_share_at; eassumption ..]. }
  assert (Hz : fadd z0 (of_N 0) = fadd (fneg z1) (of_N 1)).
  { assert (Hs1 : nth_error (vec_add (vec_add l0 r0) (vec_add l1 r1)) len = Some (fadd z0 z1)) by (rewrite vec_add_nth, Hz0, Hz1; reflexivity).
    rewrite (Hroot l0 r0 l1 r1 _ _ _ _ (evals_share_at _ _ _ _ _ _ HL0) (evals_share_at _ _ _ _ _ _ HR0) (evals_share_at _ _ _ _ _ _ HL1) (evals_share_at _ _ _ _ _ _ HR1)) in Hs1.
    assert (Hzz : of_Z 1 = fadd z0 z1) by congruence. change (of_N 0) with fzero. change (of_N 1) with fone. change (of_Z 1) with fone in Hzz.
    rewrite Hzz. ring. }
  rewrite Ht0, Ht1, Hc, Hz. reflexivity.
Qed.
End Pair.

Lemma C05_iff_lemma E k0 k1 len paths tr v0 b0 t0 v1 b1 t1 :
  env_ok E -> key_typed k0 -> key_typed k1 -> key_idx k0 = false -> key_idx k1 = true ->
  eval_tree E k0 paths len tr = Ret (v0, b0, t0) -> eval_tree E k1 paths len tr = Ret (v1, b1, t1) ->
  t0 = t1 <->
  (forall path q w0 l0 r0 w1 l1 r1 a b c a' b' c', In path paths -> q <> [] -> proper_prefix q path ->
     share_at E k0 len q = Ret (w0, a) -> share_at E k0 len (q ++ [false]) = Ret (l0, b) -> share_at E k0 len (q ++ [true]) = Ret (r0, c) ->
     share_at E k1 len q = Ret (w1, a') -> share_at E k1 len (q ++ [false]) = Ret (l1, b') -> share_at E k1 len (q ++ [true]) = Ret (r1, c') ->
     vec_add w0 w1 = vec_add (vec_add l0 l1) (vec_add r0 r1)) /\
  (forall l0 r0 l1 r1 a b a' b',
     share_at E k0 len [false] = Ret (l0, a) -> share_at E k0 len [true] = Ret (r0, b) ->
     share_at E k1 len [false] = Ret (l1, a') -> share_at E k1 len [true] = Ret (r1, b') ->
     nth_error (vec_add (vec_add l0 r0) (vec_add l1 r1)) len = Some (of_Z 1)) /\
  (forall path w0 pf0 w1 pf1, In path paths -> share_at E k0 len path = Ret (w0, pf0) -> share_at E k1 len path = Ret (w1, pf1) -> pf0 = pf1).
Proof.
  intros Hok Hty0 Hty1 Hi0 Hi1 H0 H1. split.
  - intros <-. destruct (eval_tree_sound E Hok k0 k1 len Hty0 Hty1 Hi0 Hi1 _ _ _ _ _ _ _ H0 H1) as (HS & HR & Hl0 & Hl1 & HP). split; [|split].
    + intros path q w0 l0 r0 w1 l1 r1 a b c a' b' c' Hin Hq Hpp A B C A' B' C'.
      destruct (HS path q Hin Hq Hpp) as (w0' & l0' & r0' & w1' & l1' & r1' & ? & ? & ? & ? & ? & ? & D1 & D2 & D3 & D4 & D5 & D6 & _ & _ & Hs). congruence.
    + intros l0 r0 l1 r1 a b a' b' A B A' B'. destruct HR as (l0' & r0' & l1' & r1' & ? & ? & ? & ? & D1 & D2 & D3 & D4 & Hn & _). congruence.
    + intros path w0 pf0 w1 pf1 Hin A B. apply In_nth_error in Hin. destruct Hin as [i Hi].
      assert (i < length paths) by (apply nth_error_Some; congruence).
      destruct (nth_error v0 i) as [x0|] eqn:Hv0; [|apply nth_error_None in Hv0; lia].
      destruct (nth_error v1 i) as [x1|] eqn:Hv1; [|apply nth_error_None in Hv1; lia].
      destruct (HP i path x0 x1 Hi Hv0 Hv1) as (pf & D1 & D2). congruence.
  - intros (HS & HR & HP). eapply (eval_tree_complete E Hok k0 k1 len Hty0 Hty1 Hi0 Hi1); eassumption.
Qed.
