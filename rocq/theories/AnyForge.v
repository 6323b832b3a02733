(** Proofs of C57 with different public parts: a client counts with any weights it likes. *)
From Verif Require Import Base BaseFacts Field Util UtilFacts Env Prg PrgFacts PrgSpecFacts PrgSpecFacts2 Vidpf SpecPrg SpecVidpf SpecTree
  VidpfFacts VidpfEvalFacts VidpfTreeFacts VidpfTreeFacts2 VidpfTreeFacts3 VidpfTreeFacts4 TreeIff VidpfPropFacts VidpfPropFacts2
  Merkle Collect Server Driver Modes SpecCollect SpecMetrics SpecLevel SpecWhh SpecForge SpecModes SpecAbm LevelFacts CollectInv RefuteFacts PairFacts HonestFacts MetricsFacts ForgeFacts ModesFacts ModesMain AbmForge AbmRun.

Section Any.
Variable E : env.
Hypothesis Hok : env_ok E.
Variables (k0 k1 : vidpf_key) (par : list bool) (b : bool) (beta : list fld).
Notation alpha := (par ++ [b]).
Hypothesis Hh : honest_pair E k0 k1 alpha beta.
Notation len := (length beta).
Notation m := (length par).
Notation base := (beta ++ [of_Z 1]).
Variables (st0 st1 : eval_state) (pw0 pw1 : option (list fld)).
Hypothesis He0 : evals E k0 len par st0 pw0.
Hypothesis He1 : evals E k1 len par st1 pw1.
Hypothesis Hv : vrel E k0 alpha beta par st0 st1.
Hypothesis Hm : 1 <= m.
Variable u : list fld.
Hypothesis Hu : length u = len + 1.

Definition zseed : bytes := repeat 0%N 16.
Notation ow i := (own_seed E b st0 st1 zseed i).
Notation sb i := (sib_seed E b st0 st1 zseed i).
(** hash of party i at the two children *)
Definition hx (i : bool) : bytes := firstn HASH_SIZE (node_hash E (bits_to_bitstring alpha) (conv_seed E (ow i))).
Definition hy (i : bool) : bytes := firstn HASH_SIZE (node_hash E (bits_to_bitstring (par ++ [negb b])) (conv_seed E (sb i))).
(** [a] is the party whose control bit is set at the parent *)
Definition a_party : bool := es_bit st1.
Definition c_rest : bytes := xor_vec (hx (negb a_party)) (hx a_party).
Definition c_act : bytes := xor_vec (hy a_party) (xor_vec (hy (negb a_party)) c_rest).
Definition w_rest : list fld :=
  let d := vec_sub (conv_word E (ow false) len) (conv_word E (ow true) len) in if es_bit st0 then vec_sub d u else vec_sub u d.
Definition w_act : list fld :=
  let d := vec_sub (conv_word E (sb false) len) (conv_word E (sb true) len) in
  if es_bit st0 then vec_add (vec_sub (vec_sub base u) d) w_rest else vec_sub (vec_add d w_rest) (vec_sub base u).
Definition any_cw (i : bool) : cor_word :=
  {| cw_seed := zseed; cw_bits := (negb b, b); cw_word := if Bool.eqb i a_party then w_act else w_rest |}.
Definition any_c (i : bool) : bytes := if Bool.eqb i a_party then c_act else c_rest.
Notation f0 := (last_word m (any_cw false) (any_c false) k0).
Notation f1 := (last_word m (any_cw true) (any_c true) k1).

Lemma z_len : length zseed = 16. Proof. reflexivity. Qed.
Lemma hx_len i : length (hx i) = 16. Proof. apply (hash16_len E Hok). Qed.
Lemma hy_len i : length (hy i) = 16. Proof. apply (hash16_len E Hok). Qed.
Lemma c_rest_len : length c_rest = 16.
Proof. unfold c_rest. rewrite xor_vec_length, !hx_len. reflexivity. Qed.
Lemma any_c_len i : length (any_c i) = 16.
Proof. unfold any_c, c_act. destruct (Bool.eqb i a_party); rewrite ?xor_vec_length, ?hy_len, c_rest_len; reflexivity. Qed.
Lemma g_typed : key_typed f0 /\ key_typed f1.
Proof. destruct (honest_typed _ _ _ _ _ Hok Hh) as [T0 T1]. split; (apply last_word_typed; [assumption|reflexivity|apply any_c_len]). Qed.
Lemma g_lengths : length (cor_words k0) = m + 1 /\ length (cs k0) = m + 1 /\ length (cor_words k1) = m + 1 /\ length (cs k1) = m + 1.
Proof.
  destruct (honest_lengths E Hok _ _ _ _ Hh) as (A & B & _). assert (Hc : cor_words k1 = cor_words k0) by apply Hh. assert (Hcs : cs k1 = cs k0) by apply Hh.
  rewrite app_length in A, B. rewrite Hc, Hcs. cbn [length] in *. auto.
Qed.
Lemma g_at : (nth_error (cor_words f0) m = Some (any_cw false) /\ nth_error (cs f0) m = Some (any_c false)) /\ (nth_error (cor_words f1) m = Some (any_cw true) /\ nth_error (cs f1) m = Some (any_c true)).
Proof.
  destruct g_lengths as (A & B & A1 & B1). cbn [cor_words cs last_word].
  assert (H : forall (T : Type) (l : list T) x, length l = m + 1 -> nth_error (firstn m l ++ [x]) m = Some x).
  { intros T l x Hl. rewrite nth_error_app2 by (rewrite firstn_length; lia). rewrite firstn_length, Nat.min_l, Nat.sub_diag by lia. reflexivity. }
  split; split; apply H; assumption.
Qed.
Lemma g_low p st w : length p <= m -> (evals E k0 len p st w -> evals E f0 len p st w) /\ (evals E k1 len p st w -> evals E f1 len p st w).
Proof. intros Hp. destruct g_lengths as (A & B & A1 & B1). split; intros H; apply last_word_low; try lia; exact H. Qed.
Lemma g_wf : wf_key (m + 1) f0 /\ wf_key (m + 1) f1.
Proof.
  destruct g_typed as [T0 T1]. destruct g_lengths as (A & B & A1 & B1). split; (split; [assumption|]); cbn [cor_words cs last_word]; rewrite !app_length, !firstn_length; cbn [length]; lia.
Qed.
Lemma g_idx : key_idx f0 = false /\ key_idx f1 = true.
Proof. split; apply Hh. Qed.

(** what the two children are worth *)
Definition part (d : bool) : list fld := if Bool.eqb d b then u else vec_sub base u.
Lemma base_len : length base = len + 1. Proof. rewrite app_length. reflexivity. Qed.
Lemma w_rest_len : length w_rest = len + 1.
Proof. unfold w_rest. destruct (es_bit st0); rewrite !vec_sub_length, ?conv_word_length; auto. Qed.
Lemma w_act_len : length w_act = len + 1.
Proof. unfold w_act. destruct (es_bit st0); rewrite ?vec_add_length, ?vec_sub_length, ?vec_add_length, ?vec_sub_length, ?conv_word_length, ?base_len; reflexivity. Qed.
Lemma part_len d : length (part d) = len + 1.
Proof. unfold part. destruct (Bool.eqb d b); rewrite ?vec_sub_length, ?base_len; auto. Qed.

Lemma g_last d : exists s0 w0 s1 w1, evals E f0 len (par ++ [d]) s0 (Some w0) /\ evals E f1 len (par ++ [d]) s1 (Some w1) /\ vec_add w0 w1 = part d /\ es_proof s0 = es_proof s1.
Proof.
  destruct (g_low par st0 pw0 (le_n _)) as [F0 _]. destruct (g_low par st1 pw1 (le_n _)) as [_ F1]. specialize (F0 He0). specialize (F1 He1).
  destruct (states E k0 par b beta st0 st1 Hv) as (V0 & V1 & Vp & Vpl & Vs0 & Vs1 & Hneg).
  destruct g_at as ((W0 & C0) & (W1 & C1)). destruct g_idx as [I0 I1].
  assert (Htg : forall i, tget (cw_bits (any_cw i)) d = Bool.eqb d b) by (intros i; cbn [cw_bits any_cw]; destruct d, b; reflexivity).
  assert (HB0 := eval_bit_spec E Hok f0 st0 d (bits_to_bitstring (par ++ [d])) len (any_cw false) (any_c false) Vs0).
  assert (HB1 := eval_bit_spec E Hok f1 st1 d (bits_to_bitstring (par ++ [d])) len (any_cw true) (any_c true) Vs1).
  rewrite V0 in HB0. rewrite V1 in HB1. specialize (HB0 ltac:(intros _; split; [exact W0|reflexivity]) ltac:(intros _; exact C0)).
  specialize (HB1 ltac:(intros _; split; [exact W1|reflexivity]) ltac:(intros _; exact C1)). cbv zeta in HB0, HB1. rewrite I0, Htg in HB0. rewrite I1, Htg in HB1.
  change (cw_seed (any_cw false)) with zseed in HB0. change (cw_seed (any_cw true)) with zseed in HB1.
  eexists _, _, _, _. split; [eapply ev_snoc; [exact F0|exact HB0]|]. split; [eapply ev_snoc; [exact F1|exact HB1]|]. cbn [es_proof].
  clear HB0 HB1 F0 F1 W0 C0 W1 C1. rewrite <- Vp.
  pose proof w_rest_len as Lr. pose proof w_act_len as La. pose proof base_len as Lb.
  assert (Hcl : forall s, length (conv_word E s len) = len + 1) by (intros; apply conv_word_length).
  destruct (Bool.eqb d b) eqn:Hdb.
  - apply eqb_prop in Hdb. subst d.
    change (corrected (es_bit st0) (child E (es_seed st0) b) zseed) with (ow false). change (corrected (es_bit st1) (child E (es_seed st1) b) zseed) with (ow true).
    rewrite !andb_true_r. unfold part. rewrite eqb_reflx. cbn [cw_word any_cw]. unfold any_c, a_party. rewrite Hneg. split.
    + assert (Hw := Lr). unfold w_rest in *. destruct (es_bit st0); cbn [negb xorb Bool.eqb];
        (apply (nth_ext _ _ (of_Z 0) (of_Z 0)); [rewrite !vec_add_length, ?vec_neg_length, ?vec_add_length, ?Hcl; congruence|]);
        intros j Hj; rewrite !vec_add_length, Hcl in Hj; rewrite vec_add_get by (rewrite ?vec_add_length, Hcl; exact Hj);
        rewrite vec_neg_get by (rewrite ?vec_add_length, Hcl; exact Hj); rewrite ?vec_add_get by (rewrite Hcl; exact Hj);
        rewrite !vec_sub_get by (rewrite ?vec_sub_length, ?Hcl, ?Hu; exact Hj); change (of_Z 0) with fzero; ring.
    + f_equal. unfold c_rest, a_party. rewrite Hneg.
      change (firstn HASH_SIZE (node_hash E (bits_to_bitstring alpha) (conv_seed E (ow false)))) with (hx false).
      change (firstn HASH_SIZE (node_hash E (bits_to_bitstring alpha) (conv_seed E (ow true)))) with (hx true).
      destruct (es_bit st0); cbn [negb xorb Bool.eqb]; [symmetry|]; (rewrite xor_vec_cancel_l by (rewrite !hx_len; lia)); apply firstn_all2; rewrite !hx_len; lia.
  - assert (Hd : d = negb b) by (destruct d, b; try discriminate; reflexivity). subst d.
    change (corrected (es_bit st0) (child E (es_seed st0) (negb b)) zseed) with (sb false). change (corrected (es_bit st1) (child E (es_seed st1) (negb b)) zseed) with (sb true).
    rewrite !andb_false_r. unfold part. rewrite Hdb. cbn [xorb cw_word any_cw]. unfold any_c, a_party. rewrite Hneg. split.
    + assert (Hw := La). unfold w_act in *. destruct (es_bit st0); cbn [negb xorb Bool.eqb];
        (apply (nth_ext _ _ (of_Z 0) (of_Z 0)); [rewrite !vec_add_length, ?vec_neg_length, ?vec_sub_length, ?vec_add_length, ?Hcl; congruence|]);
        intros j Hj; rewrite !vec_add_length, Hcl in Hj; rewrite vec_add_get by (rewrite ?vec_add_length, Hcl; exact Hj);
        rewrite vec_neg_get by (rewrite ?vec_add_length, Hcl; exact Hj); rewrite ?vec_add_get by (rewrite ?vec_sub_length, ?Hcl, ?Lb; exact Hj);
        rewrite ?vec_sub_get by (rewrite ?vec_add_length, ?vec_sub_length, ?Hcl, ?Hu, ?Lb; exact Hj);
        rewrite ?vec_add_get by (rewrite ?vec_sub_length, ?Hcl, ?Lb; exact Hj);
        rewrite ?vec_sub_get by (rewrite ?vec_sub_length, ?Hcl, ?Hu, ?Lb; exact Hj); change (of_Z 0) with fzero; ring.
    + f_equal. unfold c_act, a_party. rewrite Hneg.
      change (firstn HASH_SIZE (node_hash E (bits_to_bitstring (par ++ [negb b])) (conv_seed E (sb false)))) with (hy false).
      change (firstn HASH_SIZE (node_hash E (bits_to_bitstring (par ++ [negb b])) (conv_seed E (sb true)))) with (hy true).
      pose proof c_rest_len as Lc.
      destruct (es_bit st0); cbn [negb xorb Bool.eqb]; [|symmetry]; (rewrite xor_vec_cancel_l by (rewrite xor_vec_length, !hy_len, Lc; lia)); apply firstn_all2; rewrite xor_vec_length, !hy_len, Lc; lia.
Qed.
Lemma g_last' d s0 x0 s1 x1 : evals E f0 len (par ++ [d]) s0 (Some x0) -> evals E f1 len (par ++ [d]) s1 (Some x1) -> vec_add x0 x1 = part d /\ es_proof s0 = es_proof s1.
Proof.
  intros H0 H1. destruct (g_last d) as (a0 & y0 & a1 & y1 & A0 & A1 & Hs & Hp).
  destruct (evals_fun _ _ _ _ _ _ _ _ H0 A0) as [-> E0]. destruct (evals_fun _ _ _ _ _ _ _ _ H1 A1) as [-> E1]. injection E0 as ->. injection E1 as ->. auto.
Qed.
Lemma g_low' q s0 x0 s1 x1 : length q <= m -> evals E f0 len q s0 (Some x0) -> evals E f1 len q s1 (Some x1) -> vec_add x0 x1 = point_value alpha beta q /\ es_proof s0 = es_proof s1.
Proof.
  intros Hl H0 H1. assert (Hql : length q <= length alpha) by (rewrite app_length; cbn; lia).
  destruct (honest_evaluable E Hok k0 k1 alpha beta Hh) as [V0 V1]. destruct (V0 q Hql) as (a0 & y0 & A0). destruct (V1 q Hql) as (a1 & y1 & A1).
  destruct (g_low q a0 y0 Hl) as [F0 _]. destruct (g_low q a1 y1 Hl) as [_ F1]. specialize (F0 A0). specialize (F1 A1).
  destruct (evals_fun _ _ _ _ _ _ _ _ H0 F0) as [-> <-]. destruct (evals_fun _ _ _ _ _ _ _ _ H1 F1) as [-> <-].
  destruct (honest_evals E Hok k0 k1 alpha beta Hh q _ _ _ _ Hql A0 A1) as (Hp & Hs & _). auto.
Qed.

Definition any_val (q : list bool) : list fld :=
  if list_eq_dec bool_dec q alpha then u else if list_eq_dec bool_dec q (par ++ [negb b]) then vec_sub base u else point_value alpha beta q.
Lemma g_words q s0 x0 s1 x1 : evals E f0 len q s0 (Some x0) -> evals E f1 len q s1 (Some x1) -> length x0 = len + 1 /\ length x1 = len + 1.
Proof.
  intros H0 H1. destruct g_typed as [T0 T1]. destruct (evals_typed E Hok _ len T0 _ _ _ H0) as [_ A]. destruct (evals_typed E Hok _ len T1 _ _ _ H1) as [_ B].
  split; [apply A|apply B]; reflexivity.
Qed.

Lemma g_pass paths tr : (forall p, In p paths -> 1 <= length p <= m + 1) -> (forall p, In p paths -> length p = m + 1 -> p = alpha \/ p = par ++ [negb b]) ->
  exists v0 v1 t, eval_tree E f0 paths len tr = Ret (v0, beta_share E len f0, t) /\ eval_tree E f1 paths len tr = Ret (v1, beta_share E len f1, t) /\
    forall a path j, nth_error paths a = Some path -> j < len + 1 -> fadd (comp a j v0) (comp a j v1) = nth j (any_val path) (of_Z 0).
Proof.
  intros Hp Hfull. destruct g_typed as [T0 T1]. destruct g_idx as [I0 I1]. destruct g_wf as [W0 W1].
  pose proof (wf_evaluable E Hok _ _ len W0) as EV0. pose proof (wf_evaluable E Hok _ _ len W1) as EV1.
  destruct (tree_total E Hok f0 f1 len (m + 1) I0 I1 ltac:(lia) _ T0 EV0 paths tr Hp) as (v0 & b0 & t0 & H0).
  destruct (tree_total E Hok f0 f1 len (m + 1) I0 I1 ltac:(lia) _ T1 EV1 paths tr Hp) as (v1 & b1 & t1 & H1).
  assert (Htr : t0 = t1).
  { apply (eval_tree_complete E Hok f0 f1 len T0 T1 I0 I1 _ _ _ _ _ _ _ _ H0 H1).
    - intros path q w0 l0 r0 w1 l1 r1 a b' c a' b'' c' Hin Hq (s & Hs & Hpath) A B C A' B' C'.
      assert (Hnf : q ++ [false] <> []) by (destruct q; discriminate). assert (Hnt : q ++ [true] <> []) by (destruct q; discriminate).
      destruct (share_at_evals _ _ _ _ _ _ Hq A) as (sA & EA & _). destruct (share_at_evals _ _ _ _ _ _ Hnf B) as (sB & EB & _). destruct (share_at_evals _ _ _ _ _ _ Hnt C) as (sC & EC & _).
      destruct (share_at_evals _ _ _ _ _ _ Hq A') as (sA' & EA' & _). destruct (share_at_evals _ _ _ _ _ _ Hnf B') as (sB' & EB' & _). destruct (share_at_evals _ _ _ _ _ _ Hnt C') as (sC' & EC' & _).
      pose proof (Hp _ Hin) as Hpl. rewrite Hpath, app_length in Hpl. assert (1 <= length s) by (destruct s; [contradiction|cbn; lia]).
      destruct (g_low' q _ _ _ _ ltac:(lia) EA EA') as [-> _].
      destruct (Nat.eq_dec (length q) m) as [Hqm|Hqm].
      + assert (Hqp : q = par).
        { assert (Hs1 : length path = m + 1) by (rewrite Hpath, app_length; lia). destruct s as [|d [|? ?]]; cbn [length] in Hpl; try lia; [contradiction|].
          destruct (Hfull _ Hin Hs1) as [Hx|Hx]; rewrite Hpath in Hx; apply app_inj_tail in Hx; apply Hx. }
        subst q. destruct (g_last' _ _ _ _ _ EB EB') as [-> _]. destruct (g_last' _ _ _ _ _ EC EC') as [-> _].
        unfold point_value. rewrite is_prefix_app. pose proof base_len as Lb.
        apply (nth_ext _ _ (of_Z 0) (of_Z 0)); [rewrite vec_add_length, part_len; exact Lb|]. intros j Hj. rewrite vec_add_get by (rewrite part_len; lia).
        unfold part. destruct b; cbn [Bool.eqb]; rewrite vec_sub_get by lia; change (of_Z 0) with fzero; ring.
      + assert (Hql : forall d, length (q ++ [d]) <= m) by (intros; rewrite app_length; cbn; lia).
        destruct (g_low' _ _ _ _ _ (Hql false) EB EB') as [-> _]. destruct (g_low' _ _ _ _ _ (Hql true) EC EC') as [-> _].
        symmetry. apply point_split. rewrite app_length. cbn. lia.
    - intros l0 r0 l1 r1 a b' a' b'' A B A' B'.
      destruct (share_at_evals E f0 len [false] _ _ ltac:(discriminate) A) as (sA & EA & _). destruct (share_at_evals E f0 len [true] _ _ ltac:(discriminate) B) as (sB & EB & _).
      destruct (share_at_evals E f1 len [false] _ _ ltac:(discriminate) A') as (sA' & EA' & _). destruct (share_at_evals E f1 len [true] _ _ ltac:(discriminate) B') as (sB' & EB' & _).
      destruct (g_words _ _ _ _ _ EA EA') as [L1 L2]. destruct (g_words _ _ _ _ _ EB EB') as [L3 L4].
      rewrite vec_add_perm by lia. destruct (g_low' [false] _ _ _ _ Hm EA EA') as [-> _]. destruct (g_low' [true] _ _ _ _ Hm EB EB') as [-> _].
      change (nth_error (vec_add (point_value alpha beta ([] ++ [false])) (point_value alpha beta ([] ++ [true]))) len = Some (of_Z 1)).
      rewrite point_split by (rewrite app_length; cbn; lia). unfold point_value. cbn [is_prefix]. rewrite nth_error_app2, Nat.sub_diag by lia. reflexivity.
    - intros path w0 pf0 w1 pf1 Hin A B. pose proof (Hp _ Hin) as Hpl. assert (Hne : path <> []) by (intros ->; cbn in Hpl; lia).
      destruct (share_at_evals _ _ _ _ _ _ Hne A) as (sA & EA & <-). destruct (share_at_evals _ _ _ _ _ _ Hne B) as (sB & EB & <-).
      destruct (Nat.eq_dec (length path) (m + 1)) as [Hl|Hl]; [|apply (g_low' path _ _ _ _ ltac:(lia) EA EB)].
      destruct (Hfull _ Hin Hl) as [->| ->]; apply (g_last' _ _ _ _ _ EA EB). }
  subst t1. destruct (C05_lemma _ _ _ _ _ _ _ _ _ _ _ Hok T0 T1 I0 I1 H0 H1) as (_ & HR & Hl0 & Hl1 & HP).
  destruct HR as (l0 & r0 & l1 & r1 & a & b' & a' & b'' & A & B & A' & B' & _ & -> & ->).
  exists v0, v1, t0. split; [rewrite H0, (beta_is_share E Hok len _ l0 r0 _ _ T0 A B); reflexivity|]. split; [rewrite H1, (beta_is_share E Hok len _ l1 r1 _ _ T1 A' B'); reflexivity|].
  intros i path j Hi Hj. assert (Hin : In path paths) by (eapply nth_error_In; exact Hi). pose proof (Hp _ Hin) as Hpl. assert (Hne : path <> []) by (intros ->; cbn in Hpl; lia).
  assert (Hil : i < length paths) by (apply nth_error_Some; congruence).
  destruct (nth_error v0 i) as [w0|] eqn:V0; [|apply nth_error_None in V0; lia]. destruct (nth_error v1 i) as [w1|] eqn:V1; [|apply nth_error_None in V1; lia].
  destruct (HP i path w0 w1 Hi V0 V1) as (pf & S0 & S1). destruct (share_at_evals _ _ _ _ _ _ Hne S0) as (s0 & E0 & _). destruct (share_at_evals _ _ _ _ _ _ Hne S1) as (s1 & E1 & _).
  unfold comp. rewrite (nth_error_nth _ _ [] V0), (nth_error_nth _ _ [] V1). destruct (g_words _ _ _ _ _ E0 E1) as [L0 _]. rewrite <- vec_add_get by lia. f_equal.
  unfold any_val. destruct (list_eq_dec bool_dec path alpha) as [->|Hna].
  { destruct (g_last' _ _ _ _ _ E0 E1) as [-> _]. unfold part. rewrite eqb_reflx. reflexivity. }
  destruct (list_eq_dec bool_dec path (par ++ [negb b])) as [->|Hns].
  { destruct (g_last' _ _ _ _ _ E0 E1) as [-> _]. unfold part. destruct b; reflexivity. }
  destruct (Nat.eq_dec (length path) (m + 1)) as [Hl|Hl]; [destruct (Hfull _ Hin Hl); contradiction|]. apply (g_low' path _ _ _ _ ltac:(lia) E0 E1).
Qed.
Lemma g_beta : beta_share E len f0 = beta_share E len k0 /\ beta_share E len f1 = beta_share E len k1.
Proof.
  destruct (honest_evaluable E Hok k0 k1 alpha beta Hh) as [V0 V1]. unfold beta_share.
  assert (H : forall d, word_at E f0 len [d] = word_at E k0 len [d] /\ word_at E f1 len [d] = word_at E k1 len [d]).
  { intros d. assert (Hd : length [d] <= length alpha) by (rewrite app_length; cbn; lia). destruct (V0 [d] Hd) as (a0 & y0 & A0). destruct (V1 [d] Hd) as (a1 & y1 & A1).
    destruct y0 as [y0|]; [|apply (evals_none E len k0) in A0; destruct A0 as [A0 _]; discriminate (A0 eq_refl)].
    destruct y1 as [y1|]; [|apply (evals_none E len k1) in A1; destruct A1 as [A1 _]; discriminate (A1 eq_refl)].
    destruct (g_low [d] a0 (Some y0) Hm) as [F0 _]. destruct (g_low [d] a1 (Some y1) Hm) as [_ F1].
    unfold word_at. rewrite (evals_share_at _ _ _ _ _ _ (F0 A0)), (evals_share_at _ _ _ _ _ _ (F1 A1)), (evals_share_at _ _ _ _ _ _ A0), (evals_share_at _ _ _ _ _ _ A1). auto. }
  rewrite !(proj1 (H _)), !(proj2 (H _)). auto.
Qed.
End Any.

Lemma C57_any_keys_lemma E k0 k1 alpha beta u : env_ok E -> honest_keys E k0 k1 alpha beta -> 2 <= length alpha -> length u = length beta ->
  exists k0' k1', usable (length alpha) k0' /\ usable (length alpha) k1' /\ root_seed k0' = root_seed k0 /\ root_seed k1' = root_seed k1 /\
    forall attrs, (forall a, In a attrs -> 1 <= length a <= length alpha) -> (forall a, In a attrs -> length a = length alpha -> a = alpha \/ a = sibling alpha) ->
      exists v0 v1 t, eval_tree E k0' attrs (length beta) [] = Ret (v0, beta_share E (length beta) k0, t) /\ eval_tree E k1' attrs (length beta) [] = Ret (v1, beta_share E (length beta) k1, t) /\
        forall a attr j, nth_error attrs a = Some attr -> j < length beta ->
          fadd (comp a j v0) (comp a j v1) = fadd (nth j (point_value alpha beta attr) (of_Z 0)) (any_change beta u alpha attr j).
Proof.
  intros Hok Hk Ha Hu. pose proof (honest_keys_pair E _ _ _ _ Hok Hk) as Hh.
  destruct (snoc_cases alpha) as [->|(par & b & ->)]; [cbn in Ha; lia|]. rewrite app_length in Ha. cbn [length] in Ha.
  assert (Hpl : length par <= length (par ++ [b])) by (rewrite app_length; lia).
  destruct (eval_loop_honest_init E Hok k0 k1 _ beta Hh par Hpl) as (st0 & o0 & st1 & o1 & L0 & L1 & Hv & _).
  apply eval_loop_evals_init in L0, L1. destruct L0 as [L0 _]. destruct L1 as [L1 _]. assert (Hm1 : 1 <= length par) by lia.
  assert (Hu' : length (u ++ [of_Z 1]) = length beta + 1) by (rewrite app_length, Hu; reflexivity).
  pose proof (g_wf E Hok k0 k1 par b beta Hh st0 st1 Hm1 (u ++ [of_Z 1]) Hu') as [W0 W1].
  pose proof (g_beta E Hok k0 k1 par b beta Hh st0 st1 Hm1 (u ++ [of_Z 1]) Hu') as [B0 B1].
  pose proof (g_pass E Hok k0 k1 par b beta Hh st0 st1 _ _ L0 L1 Hv Hm1 (u ++ [of_Z 1]) Hu') as Hpass.
  eexists. eexists. rewrite app_length. cbn [length]. split; [exact W0|]. split; [exact W1|]. split; [reflexivity|]. split; [reflexivity|].
  intros attrs Hat Hfull. rewrite sibling_snoc in Hfull. destruct (Hpass attrs [] Hat Hfull) as (v0 & v1 & t & H0 & H1 & Hvals). rewrite B0 in H0. rewrite B1 in H1.
  exists v0, v1, t. split; [exact H0|]. split; [exact H1|].
  intros a attr j Hi Hj. rewrite (Hvals a attr j Hi ltac:(lia)). unfold any_val, any_change. rewrite sibling_snoc.
  assert (Hbl : length (beta ++ [of_Z 1]) = length beta + 1) by (rewrite app_length; reflexivity).
  destruct (list_eq_dec bool_dec attr (par ++ [b])) as [->|Hna].
  - assert (Hp : is_prefix (par ++ [b]) (par ++ [b]) = true) by (rewrite <- (app_nil_r (par ++ [b])) at 2; apply is_prefix_app).
    unfold point_value. rewrite Hp, !app_nth1 by lia. change (of_Z 0) with fzero. ring.
  - destruct (list_eq_dec bool_dec attr (par ++ [negb b])) as [->|Hns]; [|change (of_Z 0) with fzero; ring].
    rewrite vec_sub_get by lia. rewrite !app_nth1 by lia.
    assert (Hp : is_prefix (par ++ [negb b]) (par ++ [b]) = false).
    { apply not_true_iff_false. intros Hp. destruct (is_prefix_firstn _ _ Hp) as [Hf _]. rewrite firstn_all2 in Hf by (rewrite !app_length; cbn; lia). contradiction. }
    unfold point_value. rewrite Hp. rewrite nth_repeat. change (of_Z 0) with fzero. ring.
Qed.

Lemma C57_any_row_lemma E k0 k1 alpha beta u : env_ok E -> honest_keys E k0 k1 alpha beta -> 2 <= length alpha -> length u = length beta ->
  exists k0' k1', usable (length alpha) k0' /\ usable (length alpha) k1' /\
    forall vk attrs n0 p0 j0 n1 p1 j1 w, (forall a, In a attrs -> 1 <= length a <= length alpha) -> (forall a, In a attrs -> length a = length alpha -> a = alpha \/ a = sibling alpha) ->
      row_of E (length beta) vk attrs (RSMastic n0 k0 p0 j0, RSMastic n1 k1 p1 j1) w ->
      exists w', row_of E (length beta) vk attrs (RSMastic n0 k0' p0 j0, RSMastic n1 k1' p1 j1) w' /\ w_fit w' = w_fit w /\ w_agree w' = true /\ w_agree w = true /\
        forall a attr j, nth_error attrs a = Some attr -> j < length beta ->
          fadd (comp a j (w_vals0 w')) (comp a j (w_vals1 w')) =
          fadd (fadd (comp a j (w_vals0 w)) (comp a j (w_vals1 w))) (any_change beta u alpha attr j).
Proof.
  intros Hok Hk Ha Hu. destruct (C57_any_keys_lemma E k0 k1 alpha beta u Hok Hk Ha Hu) as (k0' & k1' & U0 & U1 & R0 & R1 & Hf). exists k0', k1'. split; [exact U0|]. split; [exact U1|].
  intros vk attrs n0 p0 j0 n1 p1 j1 w Hat Hsib (ver0 & h0 & ver1 & h1 & T0 & T1 & Hd & Hag). cbn [fst snd tree_share] in T0, T1.
  destruct (Hf attrs Hat Hsib) as (v0 & v1 & t & G0 & G1 & Hvals).
  destruct (eval_tree E k0 attrs (length beta) []) as [[[x0 b0] t0]|] eqn:E0; [|discriminate]. destruct (eval_tree E k1 attrs (length beta) []) as [[[x1 b1] t1]|] eqn:E1; [|discriminate].
  destruct (honest_tree_values E k0 k1 alpha beta attrs x0 b0 t0 x1 b1 t1 Hok Hk ltac:(intros ->; cbn in Ha; lia) Hat E0 E1) as (-> & -> & -> & Hhv).
  assert (J : forall first n jr k k', root_seed k' = root_seed k -> joint_rand E first (length beta) n k' jr = joint_rand E first (length beta) n k jr).
  { intros first n jr k k' Hr. unfold joint_rand, jr_part. rewrite Hr. reflexivity. }
  destruct (flp_query E (length beta) (beta_share E (length beta) k0) p0 _ _ 2) as [y0|] eqn:Q0; [|discriminate].
  destruct (flp_query E (length beta) (beta_share E (length beta) k1) p1 _ _ 2) as [y1|] eqn:Q1; [|discriminate].
  injection T0 as X0 -> <-. injection T1 as X1 -> <-.
  exists {| w_vals0 := v0; w_vals1 := v1; w_fit := w_fit w; w_agree := true |}. cbn [w_fit w_agree w_vals0 w_vals1]. split; [|split; [reflexivity|split; [reflexivity|split]]].
  - exists ver0, (blake3 E t), ver1, (blake3 E t). cbn [fst snd tree_share w_vals0 w_vals1 w_fit w_agree].
    rewrite G0, G1, (J true _ _ _ _ R0), (J false _ _ _ _ R1), Q0, Q1. repeat (split; [reflexivity|]). split; [exact Hd|]. tauto.
  - apply Hag. reflexivity.
  - intros a attr j Hi Hj. rewrite (Hvals a attr j Hi Hj), <- X0, <- X1, (Hhv a attr j Hi Hj). reflexivity.
Qed.

Lemma C57_any_run_lemma E cfg len vk attrs R rows i n0 k0 p0 j0 n1 k1 p1 j1 alpha beta u w :
  env_ok E -> cfg_hist cfg = len -> Forall2 (row_of E len vk attrs) R rows -> 0 < cfg_query_batch cfg ->
  existsb (fun w => negb (w_fit w) && negb (w_agree w)) rows = false ->
  nth_error R i = Some (RSMastic n0 k0 p0 j0, RSMastic n1 k1 p1 j1) -> nth_error rows i = Some w -> w_fit w = true ->
  honest_keys E k0 k1 alpha beta -> length beta = len -> length u = len -> 2 <= length alpha ->
  (forall a, In a attrs -> 1 <= length a <= length alpha) -> (forall a, In a attrs -> length a = length alpha -> a = alpha \/ a = sibling alpha) ->
  exists k0' k1' rows',
    let R' := replace_at i (RSMastic n0 k0' p0 j0, RSMastic n1 k1' p1 j1) R in
    Forall2 (row_of E len vk attrs) R' rows' /\
    (forall s0' s1', untouched true len vk (map fst R') s0' -> untouched false len vk (map snd R') s1' ->
       exists t0 t1, run_abm E cfg s0' s1' attrs (length rows) =
         Ret (t0, t1, map (fun e => row_table (dbg E) len attrs (firstn e rows')) (batch_ends (length rows) (cfg_query_batch cfg)))) /\
    forall e a attr j, nth_error attrs a = Some attr -> j < len ->
      cell (filter (kept (dbg E)) (firstn e rows')) a j =
      fadd (cell (filter (kept (dbg E)) (firstn e rows)) a j) (if i <? e then any_change beta u alpha attr j else of_Z 0).
Proof.
  intros Hok Hlen HF Hq Hpan Hi Hw Hfit Hk Hb Hu Ha Hat Hsib. subst len. rewrite <- Hb in Hu.
  destruct (C57_any_row_lemma E k0 k1 alpha beta u Hok Hk Ha Hu) as (k0' & k1' & _ & _ & Hf). exists k0', k1'. rewrite Hb in *.
  assert (Hrow : row_of E (cfg_hist cfg) vk attrs (RSMastic n0 k0 p0 j0, RSMastic n1 k1 p1 j1) w).
  { clear -HF Hi Hw. revert i Hi Hw. induction HF as [|x y l l' Hxy HF IH]; intros [|i] Hi Hw; try discriminate; [injection Hi as ->; injection Hw as ->; exact Hxy|]. exact (IH i Hi Hw). }
  destruct (Hf vk attrs n0 p0 j0 n1 p1 j1 w Hat Hsib Hrow) as (w' & Hr' & Hfit' & Hag' & Hag & Hvals).
  exists (replace_at i w' rows). cbv zeta.
  assert (HF' : Forall2 (row_of E (cfg_hist cfg) vk attrs) (replace_at i (RSMastic n0 k0' p0 j0, RSMastic n1 k1' p1 j1) R) (replace_at i w' rows)).
  { clear -HF Hr' Hi. revert i Hi. unfold replace_at. induction HF as [|x y l l' Hxy HF IH]; intros [|i] Hi; try discriminate; cbn [firstn skipn app]; constructor; try assumption. apply IH. exact Hi. }
  assert (Hil : i < length rows) by (apply nth_error_Some; congruence).
  assert (Hlen : length (replace_at i w' rows) = length rows) by (unfold replace_at; rewrite app_length, firstn_length; cbn [length]; rewrite skipn_length; lia).
  assert (Hrows : rows = firstn i rows ++ w :: skipn (S i) rows).
  { rewrite <- (firstn_skipn i rows) at 1. f_equal. apply nth_skipn_cons. exact Hw. }
  split; [exact HF'|]. split.
  - intros s0' s1' V0 V1. destruct (run_abm_exact E cfg (cfg_hist cfg) vk attrs eq_refl _ _ s0' s1' HF' Hq V0 V1) as (t0 & t1 & Hrun). exists t0, t1.
    rewrite Hlen in Hrun. rewrite Hrun.
    assert (Hp : existsb (fun w => negb (w_fit w) && negb (w_agree w)) (replace_at i w' rows) = false).
    { unfold replace_at. rewrite Hrows in Hpan. rewrite existsb_app in *. cbn [existsb] in *. rewrite Hag', Hag in *. rewrite !andb_false_r in *. exact Hpan. }
    rewrite Hp, andb_false_r. reflexivity.
  - intros e a attr j Hattr Hj. specialize (Hvals a attr j Hattr Hj).
    assert (Hke : kept (dbg E) w' = true) by (unfold kept; rewrite Hfit', Hag', Hfit, orb_true_r; reflexivity).
    assert (Hke0 : kept (dbg E) w = true) by (unfold kept; rewrite Hag, Hfit, orb_true_r; reflexivity).
    clear -Hvals Hke Hke0 Hw. unfold replace_at. revert i e Hw. induction rows as [|x rows IH]; intros [|i] [|e] Hw; try discriminate.
    + cbn. change (of_Z 0) with fzero. ring.
    + injection Hw as ->. cbn [firstn skipn app nth_error filter]. rewrite Hke, Hke0. cbn [Nat.ltb Nat.leb]. unfold cell. cbn [map fsum]. rewrite Hvals. ring.
    + cbn. change (of_Z 0) with fzero. ring.
    + change (firstn (S i) (x :: rows) ++ w' :: skipn (S (S i)) (x :: rows)) with (x :: (firstn i rows ++ w' :: skipn (S i) rows)). cbn [firstn filter]. change (S i <? S e) with (i <? e). specialize (IH i e Hw). destruct (kept (dbg E) x); [|exact IH].
      unfold cell in *. cbn [map fsum]. rewrite IH. ring.
Qed.
