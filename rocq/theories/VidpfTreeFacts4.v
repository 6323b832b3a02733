(** eval_tree on honest keys (C04). *)
From Verif Require Import Base BaseFacts Field Util UtilFacts Env Prg PrgFacts PrgSpecFacts PrgSpecFacts2 Vidpf SpecPrg SpecVidpf SpecTree
  VidpfFacts VidpfEvalFacts VidpfTreeFacts VidpfTreeFacts2 VidpfTreeFacts3.

Lemma honest_typed E k0 k1 alpha beta : env_ok E -> honest_pair E k0 k1 alpha beta -> key_typed k0 /\ key_typed k1.
Proof.
  intros Hok Hh. destruct (honest_lengths _ Hok _ _ _ _ Hh) as (_ & _ & _ & Hw & Hc). rewrite Forall_forall in Hw, Hc.
  destruct Hh as (_ & _ & Hcw & Hcs & Hs0 & Hs1 & _). unfold key_typed. rewrite Hcw, Hcs.
  split; (split; [assumption|]); (split; [intros cw Hin; apply (Hw cw Hin)|exact Hc]).
Qed.

Lemma vec_add_zero v : forall n, n = length v -> vec_add v (repeat (of_Z 0) n) = v.
Proof. induction v as [|x v IH]; intros [|n] H; cbn in *; try discriminate; [reflexivity|]. rewrite IH by lia. f_equal. change (of_Z 0) with fzero. ring. Qed.
Lemma vec_add_comm a : forall b, length a = length b -> vec_add a b = vec_add b a.
Proof. induction a as [|x a IH]; intros [|y b] H; cbn in *; try discriminate; [reflexivity|]. rewrite IH by lia. f_equal. ring. Qed.
Lemma vec_add_perm a : forall b c d, length b = length a -> length c = length a -> length d = length a ->
  vec_add (vec_add a b) (vec_add c d) = vec_add (vec_add a c) (vec_add b d).
Proof. induction a as [|x a IH]; intros [|y b] [|z c] [|u d] H1 H2 H3; cbn in *; try discriminate; [reflexivity|]. rewrite IH by lia. f_equal. ring. Qed.
Lemma firstn_vec_add n a : forall b, length a = length b -> firstn n (vec_add a b) = vec_add (firstn n a) (firstn n b).
Proof. revert a. induction n as [|n IH]; intros [|x a] [|y b] H; cbn in *; try discriminate; try reflexivity. rewrite IH by lia. reflexivity. Qed.

Lemma point_value_length alpha beta q : length (point_value alpha beta q) = length beta + 1.
Proof. unfold point_value. destruct (is_prefix q alpha); [rewrite app_length; reflexivity|apply repeat_length]. Qed.
Lemma point_split alpha beta q : length q < length alpha ->
  vec_add (point_value alpha beta (q ++ [false])) (point_value alpha beta (q ++ [true])) = point_value alpha beta q.
Proof.
  intros Hl. unfold point_value. rewrite !is_prefix_snoc.
  destruct (nth_error alpha (length q)) as [a|] eqn:Ha; [|apply nth_error_None in Ha; lia].
  destruct (is_prefix q alpha); cbn [andb]; [|apply vec_add_zero; rewrite repeat_length; reflexivity].
  destruct a; cbn [Bool.eqb].
  - rewrite vec_add_comm by (rewrite repeat_length, app_length; reflexivity). apply vec_add_zero. rewrite app_length. reflexivity.
  - apply vec_add_zero. rewrite app_length. reflexivity.
Qed.

Section Honest.
Variable E : env.
Hypothesis Hok : env_ok E.
Variables (k0 k1 : vidpf_key) (alpha : list bool) (beta : list fld).
Hypothesis Hh : honest_pair E k0 k1 alpha beta.
Notation len := (length beta).

Lemma honest_evaluable : evaluable E k0 len (length alpha) /\ evaluable E k1 len (length alpha).
Proof.
  split; intros q Hq; destruct (eval_loop_honest_init E Hok k0 k1 alpha beta Hh q Hq) as (st0 & o0 & st1 & o1 & He0 & He1 & _);
    [apply eval_loop_evals_init in He0|apply eval_loop_evals_init in He1]; do 2 eexists; [apply He0|apply He1].
Qed.

Lemma honest_evals q s0 x0 s1 x1 : length q <= length alpha ->
  evals E k0 len q s0 (Some x0) -> evals E k1 len q s1 (Some x1) ->
  es_proof s0 = es_proof s1 /\ vec_add x0 x1 = point_value alpha beta q /\ length x0 = len + 1 /\ length x1 = len + 1.
Proof.
  intros Hq H0 H1.
  destruct (eval_loop_honest_init E Hok k0 k1 alpha beta Hh q Hq) as (st0 & o0 & st1 & o1 & He0 & He1 & Hv & Hl0 & Hl1 & Hsh).
  destruct (eval_loop_evals_init _ _ _ _ _ _ _ He0) as [Hev0 _]. destruct (eval_loop_evals_init _ _ _ _ _ _ _ He1) as [Hev1 _].
  destruct (evals_fun _ _ _ _ _ _ _ _ H0 Hev0) as [<- Hx0]. destruct (evals_fun _ _ _ _ _ _ _ _ H1 Hev1) as [<- Hx1].
  split; [apply Hv|].
  assert (Hn0 : o0 <> []) by (intros ->; discriminate). assert (Hn1 : o1 <> []) by (intros ->; discriminate).
  pose proof (last_nth_error o0 Hn0) as HL0. pose proof (last_nth_error o1 Hn1) as HL1. injection HL0 as HL0. injection HL1 as HL1.
  rewrite <- Hx0, Hl0 in HL0. rewrite <- Hx1, Hl1 in HL1.
  pose proof (Hsh _ _ _ HL0 HL1) as Hs.
  assert (length q <> 0) by (destruct o0; [contradiction|cbn in Hl0; lia]).
  replace (length q - 1 + 1) with (length q) in Hs by lia. rewrite firstn_all in Hs.
  split; [apply shares_of_elim; exact Hs|]. destruct Hs as (Ha & Hb & _). rewrite point_value_length in *. auto.
Qed.

Lemma honest_agree : agree E k0 k1 len (fun q => length q < length alpha).
Proof.
  intros q s0 x0 sl0 l0 sr0 r0 s1 x1 sl1 l1 sr1 r1 Hq Hx0 Hl0 Hr0 Hx1 Hl1 Hr1.
  destruct (honest_evals q _ _ _ _ ltac:(lia) Hx0 Hx1) as (_ & Hx & Hxl & Hxl').
  assert (Hqd : forall d, length (q ++ [d]) <= length alpha) by (intros; rewrite app_length; cbn; lia).
  destruct (honest_evals _ _ _ _ _ (Hqd false) Hl0 Hl1) as (_ & HL & HLl & HLl').
  destruct (honest_evals _ _ _ _ _ (Hqd true) Hr0 Hr1) as (_ & HR & HRl & HRl').
  unfold check, sgn. destruct Hh as (-> & -> & _).
  eapply check_sum; [exact Hxl|exact HLl|exact HRl|exact Hxl'|exact HLl'|exact HRl'|].
  rewrite Hx, HL, HR. symmetry. apply point_split. exact Hq.
Qed.

Lemma eval_tree_honest paths tr : alpha <> [] -> (forall path, In path paths -> 1 <= length path <= length alpha) ->
  exists v0 b0 v1 b1 t,
    eval_tree E k0 paths len tr = Ret (v0, b0, t) /\ eval_tree E k1 paths len tr = Ret (v1, b1, t) /\
    length v0 = length paths /\ length v1 = length paths /\
    (forall i path w0 w1, nth_error paths i = Some path -> nth_error v0 i = Some w0 -> nth_error v1 i = Some w1 ->
       shares_of w0 w1 (point_value alpha beta path)) /\
    shares_of b0 b1 beta.
Proof.
  intros Hne Hp. destruct (honest_typed _ _ _ _ _ Hok Hh) as [Hty0 Hty1].
  assert (Ha : 1 <= length alpha) by (destruct alpha; [contradiction|cbn; lia]).
  destruct honest_evaluable as [HE0 HE1].
  assert (Htot : forall k, key_typed k -> evaluable E k len (length alpha) -> exists v b t, eval_tree E k paths len tr = Ret (v, b, t)).
  { intros k Hty HE. unfold eval_tree.
    destruct (eval_paths_total E Hok k Hty len (length alpha) paths (new_root_from_key k) tr HE (nwf_root E k len) Hp) as (n & v & t & -> & Hn).
    cbn [bind].
    destruct (traverse_total E k len (length alpha) [false] [] n t HE Hn) as [[[n1 m1] t1] Ht1]; [cbn; lia|].
    rewrite Ht1. cbn [bind]. destruct (traverse_nwf E Hok k Hty len _ _ _ _ _ _ _ Hn Ht1) as [Hn1 Hm1].
    pose proof (nwf_evals _ _ _ _ _ (nwf_node_at _ _ _ _ _ _ _ Hn1 Hm1)) as Hel. cbn [app] in Hel.
    destruct (n_word m1) as [y|] eqn:Hy; [|apply (evals_none E len k) in Hel; destruct Hel as [Hel _]; discriminate (Hel eq_refl)].
    cbn [unwrap bind].
    destruct (traverse_total E k len (length alpha) [true] [] n1 t1 HE Hn1) as [[[n2 m2] t2] Ht2]; [cbn; lia|].
    rewrite Ht2. cbn [bind]. destruct (traverse_nwf E Hok k Hty len _ _ _ _ _ _ _ Hn1 Ht2) as [Hn2 Hm2].
    pose proof (nwf_evals _ _ _ _ _ (nwf_node_at _ _ _ _ _ _ _ Hn2 Hm2)) as Her. cbn [app] in Her.
    destruct (n_word m2) as [yr|] eqn:Hyr; [|apply (evals_none E len k) in Her; destruct Her as [Her _]; discriminate (Her eq_refl)].
    cbn [unwrap bind].
    destruct (evals_typed E Hok k len Hty _ _ _ Hel) as [_ Hyl]. specialize (Hyl _ eq_refl).
    destruct (nth_error (vec_add y yr) len) as [z|] eqn:Hz.
    2:{ apply nth_error_None in Hz. rewrite vec_add_length in Hz. lia. }
    rewrite (index_some _ _ _ Hz). cbn [bind]. eauto. }
  destruct (Htot k0 Hty0 HE0) as (v0 & b0 & t0 & H0). destruct (Htot k1 Hty1 HE1) as (v1 & b1 & t1 & H1).
  assert (Hi0 : key_idx k0 = false) by apply Hh. assert (Hi1 : key_idx k1 = true) by apply Hh.
  destruct (eval_tree_pair E Hok k0 k1 len Hty0 Hty1 Hi0 Hi1 _ _ _ _ _ _ _ _ H0 H1) as
    (n0 & n1 & sts0 & sts1 & L0 & l0 & R0 & r0 & L1 & l1 & R1 & r1 & c0 & c1 & z0 & z1 &
     Hn0 & Hn1 & Hs & Hop & Hf0 & Hf1 & Hls0 & Hls1 & HL0 & HR0 & HL1 & HR1 & Hb0 & Hb1 & Hz0 & Hz1 & Ht0 & Ht1 & Hcl & _ & Hag).
  pose proof (Forall2_len _ _ _ Hf0) as Hlen0. pose proof (Forall2_len _ _ _ Hf1) as Hlen1.
  rewrite combine_length in Hlen0, Hlen1.
  apply Forall2_nth in Hf0, Hf1. destruct Hf0 as [_ Hf0], Hf1 as [_ Hf1].
  assert (Hroot : vec_add (vec_add l0 r0) (vec_add l1 r1) = beta ++ [of_Z 1] /\ length l0 = len + 1 /\ length r0 = len + 1 /\ length l1 = len + 1 /\ length r1 = len + 1).
  { destruct (honest_evals [false] _ _ _ _ Ha HL0 HL1) as (_ & HsL & HlL & HlL').
    destruct (honest_evals [true] _ _ _ _ Ha HR0 HR1) as (_ & HsR & HlR & HlR').
    split; [|auto]. rewrite vec_add_perm by lia. rewrite HsL, HsR. apply (point_split alpha beta []). cbn. lia. }
  destruct Hroot as (Hroot & Hll0 & Hlr0 & Hll1 & Hlr1).
  assert (Hprf : map es_proof sts0 = map es_proof sts1).
  { apply nth_error_ext. intros i. rewrite !nth_error_map'.
    destruct (nth_error paths i) as [path|] eqn:Hpi.
    - assert (i < length paths) by (apply nth_error_Some; congruence).
      destruct (nth_error sts0 i) as [s0|] eqn:Hs0; [|apply nth_error_None in Hs0; lia].
      destruct (nth_error sts1 i) as [s1|] eqn:Hs1; [|apply nth_error_None in Hs1; lia].
      destruct (nth_error v0 i) as [w0|] eqn:Hv0; [|apply nth_error_None in Hv0; lia].
      destruct (nth_error v1 i) as [w1|] eqn:Hv1; [|apply nth_error_None in Hv1; lia].
      cbn [option_map]. f_equal.
      apply (honest_evals path s0 w0 s1 w1).
      + apply Hp. eapply nth_error_In; exact Hpi.
      + apply (Hf0 i path (s0, w0) Hpi). rewrite nth_error_combine, Hs0, Hv0. reflexivity.
      + apply (Hf1 i path (s1, w1) Hpi). rewrite nth_error_combine, Hs1, Hv1. reflexivity.
    - apply nth_error_None in Hpi. rewrite !(proj2 (nth_error_None _ i)) by lia. reflexivity. }
  assert (Hc : c0 = c1).
  { apply Hag; [|exact Hprf]. intros path Hin q ? ? ? ? ? ? ? ? ? ? ? ? (u & s & Hs' & Hu & Hq). apply honest_agree. specialize (Hp _ Hin). cbn [app] in Hq. subst q path. rewrite app_length in Hp. destruct s; [contradiction|]. cbn [length] in Hp. lia. }
  assert (Hz : fadd z0 (of_N 0) = fadd (fneg z1) (of_N 1)).
  { assert (Hsum : nth_error (vec_add (vec_add l0 r0) (vec_add l1 r1)) len = Some (fadd z0 z1)) by (rewrite vec_add_nth, Hz0, Hz1; reflexivity).
    rewrite Hroot, nth_error_app2, Nat.sub_diag in Hsum by lia. cbn [nth_error] in Hsum.
    assert (Hzz : of_Z 1 = fadd z0 z1) by congruence. change (of_N 0) with fzero. change (of_N 1) with fone. change (of_Z 1) with fone in Hzz.
    rewrite Hzz. ring. }
  exists v0, b0, v1, b1, t0. split; [exact H0|]. split; [rewrite H1, Ht0, Ht1, Hc, Hz; reflexivity|].
  split; [lia|]. split; [lia|]. split.
  - intros i path w0 w1 Hpi Hv0 Hv1.
    assert (i < length paths) by (apply nth_error_Some; congruence).
    destruct (nth_error sts0 i) as [s0|] eqn:Hs0; [|apply nth_error_None in Hs0; lia].
    destruct (nth_error sts1 i) as [s1|] eqn:Hs1; [|apply nth_error_None in Hs1; lia].
    assert (Hsum : _) by (apply (honest_evals path s0 w0 s1 w1);
      [apply Hp; eapply nth_error_In; exact Hpi
      |apply (Hf0 i path (s0, w0) Hpi); rewrite nth_error_combine, Hs0, Hv0; reflexivity
      |apply (Hf1 i path (s1, w1) Hpi); rewrite nth_error_combine, Hs1, Hv1; reflexivity]).
    destruct Hsum as (_ & Hsum & Hw0 & Hw1). apply shares_of_intro; [congruence|exact Hsum].
  - subst b0 b1. apply shares_of_intro.
    + rewrite !firstn_length, !vec_add_length. lia.
    + rewrite <- firstn_vec_add by (rewrite !vec_add_length; lia). rewrite Hroot.
      rewrite firstn_app, Nat.sub_diag, firstn_all. apply app_nil_r.
Qed.
End Honest.
