(** Proofs of C57: a report that passes all checks of attribute-based metrics and counts with forged weights. *)
From Verif Require Import Base BaseFacts Field Util UtilFacts Env Prg PrgFacts PrgSpecFacts PrgSpecFacts2 Vidpf SpecPrg SpecVidpf SpecTree
  VidpfFacts VidpfEvalFacts VidpfTreeFacts VidpfTreeFacts2 VidpfTreeFacts3 VidpfTreeFacts4 VidpfPropFacts VidpfPropFacts2
  Merkle Collect Server Driver Modes SpecCollect SpecMetrics SpecLevel SpecWhh SpecForge SpecModes SpecAbm LevelFacts CollectInv RefuteFacts PairFacts HonestFacts MetricsFacts ForgeFacts ModesFacts ModesMain.

(** *** any two keys that balance everywhere pass *)
Section Tree.
Variable E : env.
Hypothesis Hok : env_ok E.
Variables k0 k1 : vidpf_key.
Variables len D : nat.
Hypothesis Hty0 : key_typed k0.
Hypothesis Hty1 : key_typed k1.
Hypothesis Hi0 : key_idx k0 = false.
Hypothesis Hi1 : key_idx k1 = true.
Hypothesis HD : 1 <= D.
Hypothesis HE0 : evaluable E k0 len D.
Hypothesis HE1 : evaluable E k1 len D.
Variable val : list bool -> list fld.
Hypothesis Hval : forall q s0 x0 s1 x1, length q <= D -> evals E k0 len q s0 (Some x0) -> evals E k1 len q s1 (Some x1) -> vec_add x0 x1 = val q.
Hypothesis Hsplit : forall q, q <> [] -> length q < D -> val q = vec_add (val (q ++ [false])) (val (q ++ [true])).
Hypothesis Hroot : nth_error (vec_add (val [false]) (val [true])) len = Some (of_Z 1).

Lemma tree_total k : key_typed k -> evaluable E k len D -> forall paths tr, (forall path, In path paths -> 1 <= length path <= D) ->
  exists v b t, eval_tree E k paths len tr = Ret (v, b, t).
Proof.
  intros Hty HE paths tr Hp. unfold eval_tree.
  destruct (eval_paths_total E Hok k Hty len D paths (new_root_from_key k) tr HE (nwf_root E k len) Hp) as (n & v & t & -> & Hn).
  cbn [bind].
  destruct (traverse_total E k len D [false] [] n t HE Hn) as [[[n1 m1] t1] Ht1]; [cbn; lia|].
  rewrite Ht1. cbn [bind]. destruct (traverse_nwf E Hok k Hty len _ _ _ _ _ _ _ Hn Ht1) as [Hn1 Hm1].
  pose proof (nwf_evals _ _ _ _ _ (nwf_node_at _ _ _ _ _ _ _ Hn1 Hm1)) as Hel. cbn [app] in Hel.
  destruct (n_word m1) as [y|] eqn:Hy; [|apply (evals_none E len k) in Hel; destruct Hel as [Hel _]; discriminate (Hel eq_refl)].
  cbn [unwrap bind].
  destruct (traverse_total E k len D [true] [] n1 t1 HE Hn1) as [[[n2 m2] t2] Ht2]; [cbn; lia|].
  rewrite Ht2. cbn [bind]. destruct (traverse_nwf E Hok k Hty len _ _ _ _ _ _ _ Hn1 Ht2) as [Hn2 Hm2].
  pose proof (nwf_evals _ _ _ _ _ (nwf_node_at _ _ _ _ _ _ _ Hn2 Hm2)) as Her. cbn [app] in Her.
  destruct (n_word m2) as [yr|] eqn:Hyr; [|apply (evals_none E len k) in Her; destruct Her as [Her _]; discriminate (Her eq_refl)].
  cbn [unwrap bind].
  destruct (evals_typed E Hok k len Hty _ _ _ Hel) as [_ Hyl]. specialize (Hyl _ eq_refl).
  destruct (nth_error (vec_add y yr) len) as [z|] eqn:Hz.
  2:{ apply nth_error_None in Hz. rewrite vec_add_length in Hz. lia. }
  rewrite (index_some _ _ _ Hz). cbn [bind]. eauto.
Qed.
Lemma lens0 q s x : evals E k0 len q s (Some x) -> length x = len + 1.
Proof. intros H. destruct (evals_typed E Hok k0 len Hty0 _ _ _ H) as [_ Hl]. apply Hl. reflexivity. Qed.
Lemma lens1 q s x : evals E k1 len q s (Some x) -> length x = len + 1.
Proof. intros H. destruct (evals_typed E Hok k1 len Hty1 _ _ _ H) as [_ Hl]. apply Hl. reflexivity. Qed.
Lemma balanced_agree : agree E k0 k1 len (fun q => length q < D).
Proof.
  intros q s0 x0 sl0 l0 sr0 r0 s1 x1 sl1 l1 sr1 r1 Hq Hx0 Hl0 Hr0 Hx1 Hl1 Hr1.
  unfold check, sgn. rewrite Hi0, Hi1.
  assert (Hne : q <> []). { intros ->. apply (evals_none E len k0) in Hx0. destruct Hx0 as [_ Hx0]. discriminate (Hx0 eq_refl). }
  assert (Hqd : forall d, length (q ++ [d]) <= D) by (intros; rewrite app_length; cbn; lia).
  eapply check_sum; [eapply lens0; eassumption|eapply lens0; eassumption|eapply lens0; eassumption|eapply lens1; eassumption|eapply lens1; eassumption|eapply lens1; eassumption|].
  rewrite (Hval q _ _ _ _ ltac:(lia) Hx0 Hx1), (Hval _ _ _ _ _ (Hqd false) Hl0 Hl1), (Hval _ _ _ _ _ (Hqd true) Hr0 Hr1). apply Hsplit; [exact Hne|lia].
Qed.
Lemma tree_pass paths tr : (forall path, In path paths -> 1 <= length path <= D) ->
  (forall path s0 x0 s1 x1, In path paths -> evals E k0 len path s0 (Some x0) -> evals E k1 len path s1 (Some x1) -> es_proof s0 = es_proof s1) ->
  exists v0 v1 t, eval_tree E k0 paths len tr = Ret (v0, beta_share E len k0, t) /\ eval_tree E k1 paths len tr = Ret (v1, beta_share E len k1, t) /\
    forall a path j, nth_error paths a = Some path -> j < len + 1 -> fadd (comp a j v0) (comp a j v1) = nth j (val path) (of_Z 0).
Proof.
  intros Hp Hprfs. destruct (tree_total k0 Hty0 HE0 paths tr Hp) as (v0 & b0 & t0 & H0). destruct (tree_total k1 Hty1 HE1 paths tr Hp) as (v1 & b1 & t1 & H1).
  destruct (eval_tree_pair E Hok k0 k1 len Hty0 Hty1 Hi0 Hi1 _ _ _ _ _ _ _ _ H0 H1) as
    (n0 & n1 & sts0 & sts1 & L0 & l0 & R0 & r0 & L1 & l1 & R1 & r1 & c0 & c1 & z0 & z1 &
     Hn0 & Hn1 & Hs & Hop & Hf0 & Hf1 & Hls0 & Hls1 & HL0 & HR0 & HL1 & HR1 & Hb0 & Hb1 & Hz0 & Hz1 & Ht0 & Ht1 & Hcl & _ & Hag).
  pose proof (Forall2_len _ _ _ Hf0) as Hlen0. pose proof (Forall2_len _ _ _ Hf1) as Hlen1.
  rewrite combine_length in Hlen0, Hlen1.
  apply Forall2_nth in Hf0, Hf1. destruct Hf0 as [_ Hf0], Hf1 as [_ Hf1].
  assert (Hat : forall i path, nth_error paths i = Some path -> exists s0 w0 s1 w1, nth_error sts0 i = Some s0 /\ nth_error v0 i = Some w0 /\ nth_error sts1 i = Some s1 /\ nth_error v1 i = Some w1 /\
     evals E k0 len path s0 (Some w0) /\ evals E k1 len path s1 (Some w1)).
  { intros i path Hpi. assert (i < length paths) by (apply nth_error_Some; congruence).
    destruct (nth_error sts0 i) as [s0|] eqn:Hs0; [|apply nth_error_None in Hs0; lia].
    destruct (nth_error sts1 i) as [s1|] eqn:Hs1; [|apply nth_error_None in Hs1; lia].
    destruct (nth_error v0 i) as [w0|] eqn:Hv0; [|apply nth_error_None in Hv0; lia].
    destruct (nth_error v1 i) as [w1|] eqn:Hv1; [|apply nth_error_None in Hv1; lia].
    exists s0, w0, s1, w1. repeat (split; [reflexivity|]). split.
    - apply (Hf0 i path (s0, w0) Hpi). rewrite nth_error_combine, Hs0, Hv0. reflexivity.
    - apply (Hf1 i path (s1, w1) Hpi). rewrite nth_error_combine, Hs1, Hv1. reflexivity. }
  assert (Hprf : map es_proof sts0 = map es_proof sts1).
  { apply nth_error_ext. intros i. rewrite !nth_error_map'.
    destruct (nth_error paths i) as [path|] eqn:Hpi.
    - destruct (Hat i path Hpi) as (s0 & w0 & s1 & w1 & -> & _ & -> & _ & A & B). cbn [option_map]. f_equal.
      eapply Hprfs; [eapply nth_error_In; exact Hpi|exact A|exact B].
    - apply nth_error_None in Hpi. rewrite !(proj2 (nth_error_None _ i)) by lia. reflexivity. }
  assert (Hc : c0 = c1).
  { apply Hag; [|exact Hprf]. intros path Hin q ? ? ? ? ? ? ? ? ? ? ? ? (u & s & Hs' & Hu & Hq). apply balanced_agree. specialize (Hp _ Hin). cbn [app] in Hq. subst q path. rewrite app_length in Hp. destruct s; [contradiction|]. cbn [length] in Hp. lia. }
  pose proof (lens0 _ _ _ HL0) as Hll0. pose proof (lens0 _ _ _ HR0) as Hlr0. pose proof (lens1 _ _ _ HL1) as Hll1. pose proof (lens1 _ _ _ HR1) as Hlr1.
  assert (Hz : fadd z0 (of_N 0) = fadd (fneg z1) (of_N 1)).
  { assert (Hsum : nth_error (vec_add (vec_add l0 r0) (vec_add l1 r1)) len = Some (fadd z0 z1)) by (rewrite vec_add_nth, Hz0, Hz1; reflexivity).
    rewrite vec_add_perm in Hsum by lia. rewrite (Hval [false] _ _ _ _ HD HL0 HL1), (Hval [true] _ _ _ _ HD HR0 HR1), Hroot in Hsum.
    assert (Hzz : of_Z 1 = fadd z0 z1) by congruence. change (of_N 0) with fzero. change (of_N 1) with fone. change (of_Z 1) with fone in Hzz.
    rewrite Hzz. ring. }
  exists v0, v1, t0.
  split. { rewrite H0, Hb0. rewrite (beta_is_share E Hok len k0 l0 r0 _ _ Hty0 (evals_share_at _ _ _ _ _ _ HL0) (evals_share_at _ _ _ _ _ _ HR0)). reflexivity. }
  split. { rewrite H1, Hb1, Ht0, Ht1, Hc, Hz. rewrite (beta_is_share E Hok len k1 l1 r1 _ _ Hty1 (evals_share_at _ _ _ _ _ _ HL1) (evals_share_at _ _ _ _ _ _ HR1)). reflexivity. }
  intros a path j Ha Hj. destruct (Hat a path Ha) as (s0 & w0 & s1 & w1 & _ & W0 & _ & W1 & A & B). unfold comp. rewrite (nth_error_nth _ _ [] W0), (nth_error_nth _ _ [] W1).
  assert (Hpl : length path <= D) by (apply Hp; eapply nth_error_In; exact Ha).
  rewrite <- (Hval path _ _ _ _ Hpl A B). symmetry. apply vec_add_get. rewrite (lens0 _ _ _ A). lia.
Qed.
End Tree.

(** *** another correction word at the last level *)
Lemma vec_neg_get a j : j < length a -> nth j (vec_neg a) (of_Z 0) = fneg (nth j a (of_Z 0)).
Proof. intros Hj. unfold vec_neg. rewrite (nth_indep _ _ (fneg (of_Z 0))) by (rewrite map_length; exact Hj). apply map_nth. Qed.
Definition last_word (m : nat) (cw : cor_word) (c : bytes) (k : vidpf_key) : vidpf_key :=
  {| key_idx := key_idx k; root_seed := root_seed k; cor_words := firstn m (cor_words k) ++ [cw]; cs := firstn m (cs k) ++ [c] |}.
Lemma eval_bit_ext E k k' st d bs len : key_idx k' = key_idx k -> nth_error (cor_words k') (es_level st) = nth_error (cor_words k) (es_level st) ->
  nth_error (cs k') (es_level st) = nth_error (cs k) (es_level st) -> eval_bit E k' st d bs len = eval_bit E k st d bs len.
Proof. intros Hi Hw Hc. unfold eval_bit, index. rewrite Hi, Hw, Hc. reflexivity. Qed.
Lemma firstn_app_nth {A} (l : list A) m i x : i < m -> m <= length l -> nth_error (firstn m l ++ [x]) i = nth_error l i.
Proof. intros Hi Hm. rewrite nth_error_app1 by (rewrite firstn_length; lia). rewrite <- (firstn_skipn m l) at 2. rewrite nth_error_app1 by (rewrite firstn_length; lia). reflexivity. Qed.
Lemma last_word_low E m cw c k len p st w : m <= length (cor_words k) -> m <= length (cs k) -> length p <= m -> evals E k len p st w -> evals E (last_word m cw c k) len p st w.
Proof.
  intros Hw Hc Hp H. revert Hp. induction H as [|p st w d st' w' He IH Hb]; intros Hp; [exact (ev_nil E (last_word m cw c k) len)|].
  rewrite app_length in Hp. cbn [length] in Hp. eapply ev_snoc; [apply IH; lia|]. rewrite <- Hb. apply eval_bit_ext; [reflexivity| |].
  - cbn [cor_words last_word]. rewrite (evals_level _ _ _ _ _ _ He). apply firstn_app_nth; lia.
  - cbn [cs last_word]. rewrite (evals_level _ _ _ _ _ _ He). apply firstn_app_nth; lia.
Qed.
Lemma last_word_typed m cw c k : key_typed k -> length (cw_seed cw) = 16 -> length c = 16 -> key_typed (last_word m cw c k).
Proof.
  intros (A & B & C) Hw Hc. split; [exact A|]. cbn [cor_words cs last_word]. split.
  - intros x Hx. apply in_app_or in Hx. destruct Hx as [Hx|[<-|[]]]; [|exact Hw]. apply B. rewrite <- (firstn_skipn m). apply in_or_app. left. exact Hx.
  - intros x Hx. apply in_app_or in Hx. destruct Hx as [Hx|[<-|[]]]; [|exact Hc]. apply C. rewrite <- (firstn_skipn m). apply in_or_app. left. exact Hx.
Qed.

Section Forge.
Variable E : env.
Hypothesis Hok : env_ok E.
Variables (k0 k1 : vidpf_key) (par : list bool) (b : bool) (beta : list fld).
Notation alpha := (par ++ [b]).
Hypothesis Hh : honest_pair E k0 k1 alpha beta.
Notation len := (length beta).
Notation m := (length par).
Notation base := (beta ++ [of_Z 1]).
Variables (st0 st1 : eval_state) (pw0 pw1 : option (list fld)).
Hypothesis He0 : evals E k0 len par st0 pw0.
Hypothesis He1 : evals E k1 len par st1 pw1.
Hypothesis Hv : vrel E k0 alpha beta par st0 st1.
Variable D : bytes.
Hypothesis HD : length D = 16.

Definition sib_seed (i : bool) : bytes := let st := if i then st1 else st0 in corrected (es_bit st) (child E (es_seed st) (negb b)) D.
Definition own_seed (i : bool) : bytes := let st := if i then st1 else st0 in corrected (es_bit st) (child E (es_seed st) b) D.
(** the value the sibling of alpha gets *)
Definition stray : list fld := vec_sub (conv_word E (sib_seed false) len) (conv_word E (sib_seed true) len).
Definition target : list fld := vec_sub base stray.
Definition forged_w : list fld :=
  let w := vec_add (vec_sub target (conv_word E (own_seed false) len)) (conv_word E (own_seed true) len) in if es_bit st0 then vec_neg w else w.
Definition forged_cw : cor_word := {| cw_seed := D; cw_bits := (negb b, b); cw_word := forged_w |}.
Definition forged_c : bytes :=
  firstn HASH_SIZE (xor_vec (node_hash E (bits_to_bitstring alpha) (conv_seed E (own_seed false))) (node_hash E (bits_to_bitstring alpha) (conv_seed E (own_seed true)))).
Notation f0 := (last_word m forged_cw forged_c k0).
Notation f1 := (last_word m forged_cw forged_c k1).

Definition forged_val (q : list bool) : list fld :=
  if length q <=? m then point_value alpha beta q
  else if list_eq_dec bool_dec q alpha then target
  else if list_eq_dec bool_dec q (par ++ [negb b]) then stray else repeat (of_Z 0) (len + 1).

Lemma f_lengths : length (cor_words k0) = m + 1 /\ length (cs k0) = m + 1 /\ length (cor_words k1) = m + 1 /\ length (cs k1) = m + 1.
Proof.
  destruct (honest_lengths E Hok _ _ _ _ Hh) as (A & B & _). assert (Hc : cor_words k1 = cor_words k0) by apply Hh. assert (Hcs : cs k1 = cs k0) by apply Hh.
  rewrite app_length in A, B. rewrite Hc, Hcs. cbn [length] in *. auto.
Qed.
Lemma states : es_level st0 = m /\ es_level st1 = m /\ es_proof st0 = es_proof st1 /\ length (es_proof st0) = 16 /\ length (es_seed st0) = 16 /\ length (es_seed st1) = 16 /\ es_bit st1 = negb (es_bit st0).
Proof. destruct Hv as (A & B & C & F & G & H & I). rewrite is_prefix_app in I. destruct I as [I _]. auto 10. Qed.
Lemma sib_length i : length (sib_seed i) = 16.
Proof. destruct states as (_ & _ & _ & _ & S0 & S1 & _). unfold sib_seed, corrected. destruct i; [destruct (es_bit st1)|destruct (es_bit st0)]; try apply seed_xor_length; try apply child_length; assumption. Qed.
Lemma own_length i : length (own_seed i) = 16.
Proof. destruct states as (_ & _ & _ & _ & S0 & S1 & _). unfold own_seed, corrected. destruct i; [destruct (es_bit st1)|destruct (es_bit st0)]; try apply seed_xor_length; try apply child_length; assumption. Qed.
Lemma stray_length : length stray = len + 1.
Proof. unfold stray. rewrite vec_sub_length, conv_word_length. reflexivity. Qed.
Lemma target_length : length target = len + 1.
Proof. unfold target. rewrite vec_sub_length, app_length. reflexivity. Qed.
Lemma forged_w_length : length forged_w = len + 1.
Proof. unfold forged_w. destruct (es_bit st0); rewrite ?vec_neg_length, vec_add_length, vec_sub_length; apply target_length. Qed.
Lemma forged_c_length : length forged_c = 16.
Proof. unfold forged_c. rewrite firstn_xor, xor_vec_length, !(hash16_len E Hok). reflexivity. Qed.
Lemma f_typed : key_typed f0 /\ key_typed f1.
Proof. destruct (honest_typed _ _ _ _ _ Hok Hh) as [T0 T1]. split; (apply last_word_typed; [assumption|exact HD|apply forged_c_length]). Qed.
Lemma f_at : (nth_error (cor_words f0) m = Some forged_cw /\ nth_error (cs f0) m = Some forged_c) /\ (nth_error (cor_words f1) m = Some forged_cw /\ nth_error (cs f1) m = Some forged_c).
Proof.
  destruct f_lengths as (A & B & A1 & B1). cbn [cor_words cs last_word].
  assert (H : forall (T : Type) (l : list T) x, length l = m + 1 -> nth_error (firstn m l ++ [x]) m = Some x).
  { intros T l x Hl. rewrite nth_error_app2 by (rewrite firstn_length; lia). rewrite firstn_length, Nat.min_l, Nat.sub_diag by lia. reflexivity. }
  split; split; apply H; assumption.
Qed.
Lemma f_low p st w : length p <= m -> (evals E k0 len p st w -> evals E f0 len p st w) /\ (evals E k1 len p st w -> evals E f1 len p st w).
Proof. intros Hp. destruct f_lengths as (A & B & A1 & B1). split; intros H; apply last_word_low; try lia; exact H. Qed.
Lemma f_wf : wf_key (m + 1) f0 /\ wf_key (m + 1) f1.
Proof.
  destruct f_typed as [T0 T1]. destruct f_lengths as (A & B & A1 & B1). split; (split; [assumption|]); cbn [cor_words cs last_word]; rewrite !app_length, !firstn_length; cbn [length]; lia.
Qed.
Lemma f_idx : key_idx f0 = false /\ key_idx f1 = true.
Proof. split; apply Hh. Qed.

(** the states and words of both aggregators at the last level *)
Lemma f_last q d : length q = m ->
  exists s0 w0 s1 w1, evals E f0 len (q ++ [d]) s0 (Some w0) /\ evals E f1 len (q ++ [d]) s1 (Some w1) /\ vec_add w0 w1 = forged_val (q ++ [d]) /\
    (q ++ [d] <> par ++ [negb b] -> es_proof s0 = es_proof s1).
Proof.
  intros Hq. assert (Hql : length q <= length alpha) by (rewrite app_length; cbn; lia).
  destruct (eval_loop_honest_init E Hok k0 k1 alpha beta Hh q Hql) as (q0 & o0 & q1 & o1 & L0 & L1 & Hvq & _).
  apply eval_loop_evals_init in L0, L1. destruct L0 as [L0 _]. destruct L1 as [L1 _].
  destruct (f_low q q0 (last (map Some o0) None) ltac:(lia)) as [F0 _]. destruct (f_low q q1 (last (map Some o1) None) ltac:(lia)) as [_ F1]. specialize (F0 L0). specialize (F1 L1).
  pose proof Hvq as (V0 & V1 & Vp & Vpl & Vs0 & Vs1 & Hcase). rewrite Hq in V0, V1.
  destruct f_at as ((W0 & C0) & (W1 & C1)). destruct f_idx as [I0 I1].
  assert (Htg : tget (cw_bits forged_cw) d = Bool.eqb d b) by (cbn [cw_bits forged_cw]; destruct d, b; reflexivity).
  assert (HB0 := eval_bit_spec E Hok f0 q0 d (bits_to_bitstring (q ++ [d])) len forged_cw forged_c Vs0).
  assert (HB1 := eval_bit_spec E Hok f1 q1 d (bits_to_bitstring (q ++ [d])) len forged_cw forged_c Vs1).
  rewrite V0 in HB0. rewrite V1 in HB1. specialize (HB0 ltac:(intros _; split; [exact W0|exact HD]) ltac:(intros _; exact C0)).
  specialize (HB1 ltac:(intros _; split; [exact W1|exact HD]) ltac:(intros _; exact C1)). cbv zeta in HB0, HB1. rewrite I0, Htg in HB0. rewrite I1, Htg in HB1.
  change (cw_seed forged_cw) with D in HB0, HB1. change (cw_word forged_cw) with forged_w in HB0, HB1.
  eexists _, _, _, _. split; [eapply ev_snoc; [exact F0|exact HB0]|]. split; [eapply ev_snoc; [exact F1|exact HB1]|]. cbn [es_proof].
  pose proof forged_w_length as Hfw.
  assert (Hwl : forall t (nb : bool), length (if nb then vec_add (conv_word E t len) forged_w else conv_word E t len) = len + 1).
  { intros t [|]; rewrite ?vec_add_length, conv_word_length; reflexivity. }
  assert (Hlong : length (q ++ [d]) <=? m = false) by (apply Nat.leb_gt; rewrite app_length; cbn; lia).
  unfold forged_val. rewrite Hlong.
  destruct (list_eq_dec bool_dec q par) as [->|Hnp].
  - destruct (evals_fun _ _ _ _ _ _ _ _ L0 He0) as [-> _]. destruct (evals_fun _ _ _ _ _ _ _ _ L1 He1) as [-> _].
    destruct states as (_ & _ & _ & _ & _ & _ & Hneg).
    destruct (Bool.eqb d b) eqn:Hdb.
    + apply eqb_prop in Hdb. subst d. destruct (list_eq_dec bool_dec alpha alpha) as [_|Hc]; [|contradiction].
      change (corrected (es_bit st0) (child E (es_seed st0) b) D) with (own_seed false). change (corrected (es_bit st1) (child E (es_seed st1) b) D) with (own_seed true).
      rewrite !andb_true_r, Hneg. destruct (fld_word_on target (conv_word E (own_seed false) len) (conv_word E (own_seed true) len)) as [HA HB];
        [rewrite conv_word_length, target_length; reflexivity|rewrite conv_word_length, target_length; reflexivity|].
      split.
      * unfold forged_w. destruct (es_bit st0); cbn [negb xorb]; assumption.
      * intros _. rewrite <- Vp. f_equal. unfold forged_c. rewrite firstn_xor.
        pose proof (hash16_len E Hok (bits_to_bitstring alpha) (conv_seed E (own_seed false))) as HL0. pose proof (hash16_len E Hok (bits_to_bitstring alpha) (conv_seed E (own_seed true))) as HL1.
        destruct (es_bit st0); cbn [negb xorb].
        -- symmetry. exact (seed_fix _ _ HL0 HL1).
        -- exact (seed_fix' _ _ HL0 HL1).
    + assert (Hd : d = negb b) by (destruct d, b; try discriminate; reflexivity). subst d.
      destruct (list_eq_dec bool_dec (par ++ [negb b]) alpha) as [Hc|_]; [apply app_inj_tail in Hc; destruct Hc as [_ Hc]; destruct b; discriminate|].
      destruct (list_eq_dec bool_dec (par ++ [negb b]) (par ++ [negb b])) as [_|Hc]; [|contradiction].
      split; [|intros Hc; contradiction]. rewrite !andb_false_r. cbn [xorb].
      change (corrected (es_bit st0) (child E (es_seed st0) (negb b)) D) with (sib_seed false). change (corrected (es_bit st1) (child E (es_seed st1) (negb b)) D) with (sib_seed true).
      unfold stray. apply (nth_ext _ _ (of_Z 0) (of_Z 0)); [rewrite !vec_add_length, vec_sub_length, !conv_word_length; reflexivity|].
      intros j Hj. rewrite !vec_add_length, conv_word_length in Hj.
      rewrite vec_add_get by (rewrite vec_add_length, conv_word_length; exact Hj). rewrite vec_neg_get by (rewrite vec_add_length, conv_word_length; exact Hj).
      rewrite !vec_add_get, vec_sub_get by (rewrite conv_word_length; exact Hj). change (of_Z 0) with fzero. ring.
  - assert (Hoff : is_prefix q alpha = false).
    { destruct (is_prefix q alpha) eqn:Hp; [|reflexivity]. exfalso. apply Hnp. destruct (is_prefix_firstn _ _ Hp) as [Hf _]. rewrite Hf, Hq, firstn_app, Nat.sub_diag, firstn_all. apply app_nil_r. }
    rewrite Hoff in Hcase. destruct Hcase as [Hse Hbe].
    assert (Hna : forall x, q ++ [d] <> par ++ [x]) by (intros x Hc; apply app_inj_tail in Hc; destruct Hc as [Hc _]; contradiction).
    destruct (list_eq_dec bool_dec (q ++ [d]) alpha) as [Hc|_]; [destruct (Hna _ Hc)|].
    destruct (list_eq_dec bool_dec (q ++ [d]) (par ++ [negb b])) as [Hc|_]; [destruct (Hna _ Hc)|].
    rewrite Hse, Hbe, Vp. split; [|reflexivity]. rewrite fld_word_off, Hwl. reflexivity.
Qed.

Lemma f_val q s0 x0 s1 x1 : length q <= m + 1 -> evals E f0 len q s0 (Some x0) -> evals E f1 len q s1 (Some x1) ->
  vec_add x0 x1 = forged_val q /\ (q <> par ++ [negb b] -> es_proof s0 = es_proof s1).
Proof.
  intros Hq H0 H1. destruct (Nat.leb_spec (length q) m) as [Hl|Hl].
  - assert (Hql : length q <= length alpha) by (rewrite app_length; cbn; lia).
    destruct (honest_evaluable E Hok k0 k1 alpha beta Hh) as [V0 V1]. destruct (V0 q Hql) as (a0 & y0 & A0). destruct (V1 q Hql) as (a1 & y1 & A1).
    destruct (f_low q a0 y0 Hl) as [F0 _]. destruct (f_low q a1 y1 Hl) as [_ F1]. specialize (F0 A0). specialize (F1 A1).
    destruct (evals_fun _ _ _ _ _ _ _ _ H0 F0) as [-> <-]. destruct (evals_fun _ _ _ _ _ _ _ _ H1 F1) as [-> <-].
    destruct (honest_evals E Hok k0 k1 alpha beta Hh q _ _ _ _ Hql A0 A1) as (Hp & Hs & _). split; [|intros _; exact Hp].
    unfold forged_val. rewrite (proj2 (Nat.leb_le _ _) Hl). exact Hs.
  - destruct (snoc_cases q) as [->|(p & d & ->)]; [cbn in Hl; lia|]. rewrite app_length in Hl, Hq. cbn [length] in Hl, Hq.
    destruct (f_last p d ltac:(lia)) as (a0 & y0 & a1 & y1 & A0 & A1 & Hs & Hp).
    destruct (evals_fun _ _ _ _ _ _ _ _ H0 A0) as [-> E0]. destruct (evals_fun _ _ _ _ _ _ _ _ H1 A1) as [-> E1].
    injection E0 as ->. injection E1 as ->. auto.
Qed.

Lemma f_split q : length q < m + 1 -> forged_val q = vec_add (forged_val (q ++ [false])) (forged_val (q ++ [true])).
Proof.
  intros Hq. unfold forged_val. rewrite (proj2 (Nat.leb_le (length q) m)) by lia.
  destruct (Nat.eq_dec (length q) m) as [Hm|Hm].
  - assert (Hlong : forall d, length (q ++ [d]) <=? m = false) by (intros d; apply Nat.leb_gt; rewrite app_length; cbn; lia). rewrite !Hlong. clear Hlong.
    destruct (list_eq_dec bool_dec q par) as [->|Hnp].
    + unfold point_value. rewrite is_prefix_app.
      assert (Hsum : base = vec_add target stray /\ base = vec_add stray target).
      { pose proof stray_length as Hs. pose proof target_length as Ht.
        assert (Hbl : length base = len + 1) by (rewrite app_length; reflexivity).
        split; (apply (nth_ext _ _ (of_Z 0) (of_Z 0)); [rewrite vec_add_length; lia|]); intros j Hj; rewrite vec_add_get by lia; unfold target; rewrite vec_sub_get by lia; change (of_Z 0) with fzero; ring. }
      destruct Hsum as [S1 S2]. destruct b; cbn [negb].
      * destruct (list_eq_dec bool_dec (par ++ [false]) (par ++ [true])) as [Hc|_]; [apply app_inj_tail in Hc; destruct Hc; discriminate|].
        destruct (list_eq_dec bool_dec (par ++ [false]) (par ++ [false])) as [_|Hc]; [|contradiction].
        destruct (list_eq_dec bool_dec (par ++ [true]) (par ++ [true])) as [_|Hc]; [|contradiction]. exact S2.
      * destruct (list_eq_dec bool_dec (par ++ [false]) (par ++ [false])) as [_|Hc]; [|contradiction].
        destruct (list_eq_dec bool_dec (par ++ [true]) (par ++ [false])) as [Hc|_]; [apply app_inj_tail in Hc; destruct Hc; discriminate|].
        destruct (list_eq_dec bool_dec (par ++ [true]) (par ++ [true])) as [_|Hc]; [|contradiction]. exact S1.
    + assert (Hna : forall d x, q ++ [d] <> par ++ [x]) by (intros d x Hc; apply app_inj_tail in Hc; destruct Hc as [Hc _]; contradiction).
      repeat match goal with |- context [list_eq_dec bool_dec (q ++ [?d]) (par ++ [?x])] => destruct (list_eq_dec bool_dec (q ++ [d]) (par ++ [x])) as [Hc|_]; [destruct (Hna _ _ Hc)|] end.
      assert (Hoff : is_prefix q alpha = false).
      { destruct (is_prefix q alpha) eqn:Hp; [|reflexivity]. exfalso. apply Hnp. destruct (is_prefix_firstn _ _ Hp) as [Hf _]. rewrite Hf, Hm, firstn_app, Nat.sub_diag, firstn_all. apply app_nil_r. }
      unfold point_value. rewrite Hoff. symmetry. apply vec_add_zero. rewrite repeat_length. reflexivity.
  - assert (Hshort : forall d, length (q ++ [d]) <=? m = true) by (intros d; apply Nat.leb_le; rewrite app_length; cbn; lia). rewrite !Hshort.
    symmetry. apply point_split. rewrite app_length. cbn. lia.
Qed.
Lemma f_root : nth_error (vec_add (forged_val [false]) (forged_val [true])) len = Some (of_Z 1).
Proof.
  change (nth_error (vec_add (forged_val ([] ++ [false])) (forged_val ([] ++ [true]))) len = Some (of_Z 1)). rewrite <- (f_split []) by (cbn; lia). unfold forged_val. cbn [length Nat.leb]. unfold point_value. cbn [is_prefix].
  rewrite nth_error_app2, Nat.sub_diag by lia. reflexivity.
Qed.

Lemma f_pass paths tr : (forall p, In p paths -> 1 <= length p <= m + 1) -> ~ In (par ++ [negb b]) paths ->
  exists v0 v1 t, eval_tree E f0 paths len tr = Ret (v0, beta_share E len f0, t) /\ eval_tree E f1 paths len tr = Ret (v1, beta_share E len f1, t) /\
    forall a path j, nth_error paths a = Some path -> j < len + 1 -> fadd (comp a j v0) (comp a j v1) = nth j (forged_val path) (of_Z 0).
Proof.
  intros Hp Hsib. destruct f_typed as [T0 T1]. destruct f_idx as [I0 I1]. destruct f_wf as [W0 W1].
  apply (tree_pass E Hok f0 f1 len (m + 1) T0 T1 I0 I1 ltac:(lia) (wf_evaluable E Hok _ _ len W0) (wf_evaluable E Hok _ _ len W1) forged_val).
  - intros q s0 x0 s1 x1 Hq A B. apply (f_val q s0 x0 s1 x1 Hq A B).
  - intros q _ Hq. apply f_split. exact Hq.
  - exact f_root.
  - exact Hp.
  - intros path s0 x0 s1 x1 Hin A B. destruct (Hp _ Hin) as [_ Hl]. apply (f_val path s0 x0 s1 x1 Hl A B). intros ->. contradiction.
Qed.
Lemma f_beta : 1 <= m -> beta_share E len f0 = beta_share E len k0 /\ beta_share E len f1 = beta_share E len k1.
Proof.
  intros Hm. destruct (honest_evaluable E Hok k0 k1 alpha beta Hh) as [V0 V1]. unfold beta_share.
  assert (H : forall d, word_at E f0 len [d] = word_at E k0 len [d] /\ word_at E f1 len [d] = word_at E k1 len [d]).
  { intros d. assert (Hd : length [d] <= length alpha) by (rewrite app_length; cbn; lia). destruct (V0 [d] Hd) as (a0 & y0 & A0). destruct (V1 [d] Hd) as (a1 & y1 & A1).
    destruct y0 as [y0|]; [|apply (evals_none E len k0) in A0; destruct A0 as [A0 _]; discriminate (A0 eq_refl)].
    destruct y1 as [y1|]; [|apply (evals_none E len k1) in A1; destruct A1 as [A1 _]; discriminate (A1 eq_refl)].
    destruct (f_low [d] a0 (Some y0) Hm) as [F0 _]. destruct (f_low [d] a1 (Some y1) Hm) as [_ F1].
    unfold word_at. rewrite (evals_share_at _ _ _ _ _ _ (F0 A0)), (evals_share_at _ _ _ _ _ _ (F1 A1)), (evals_share_at _ _ _ _ _ _ A0), (evals_share_at _ _ _ _ _ _ A1). auto. }
  rewrite !(proj1 (H _)), !(proj2 (H _)). auto.
Qed.
End Forge.

(** *** the theorem for one report *)
Lemma stretch_conv E len s : env_ok E -> length s = 16 -> stretch E len s = conv_word E s len.
Proof. intros Hok Hs. unfold stretch. rewrite (convert_conv E Hok) by exact Hs. reflexivity. Qed.
Lemma sibling_snoc p b : sibling (p ++ [b]) = p ++ [negb b].
Proof. unfold sibling. rewrite removelast_last, last_last. reflexivity. Qed.

Lemma C57_keys_lemma E k0 k1 alpha beta : env_ok E -> honest_keys E k0 k1 alpha beta -> 2 <= length alpha ->
  exists sign Y, length Y = 16 /\ forall Z, length Z = 16 -> exists k0' k1', usable (length alpha) k0' /\ usable (length alpha) k1' /\
    root_seed k0' = root_seed k0 /\ root_seed k1' = root_seed k1 /\
    forall attrs, (forall a, In a attrs -> 1 <= length a <= length alpha) -> ~ In (sibling alpha) attrs ->
      exists v0 v1 t, eval_tree E k0' attrs (length beta) [] = Ret (v0, beta_share E (length beta) k0, t) /\ eval_tree E k1' attrs (length beta) [] = Ret (v1, beta_share E (length beta) k1, t) /\
        forall a attr j, nth_error attrs a = Some attr -> j < length beta ->
          fadd (comp a j v0) (comp a j v1) =
          if list_eq_dec bool_dec attr alpha then fadd (nth j beta (of_Z 0)) (shift_by E (length beta) sign Y Z j) else nth j (point_value alpha beta attr) (of_Z 0).
Proof.
  intros Hok Hk Ha. pose proof (honest_keys_pair E _ _ _ _ Hok Hk) as Hh.
  destruct (snoc_cases alpha) as [->|(par & b & ->)]; [cbn in Ha; lia|]. rewrite app_length in Ha. cbn [length] in Ha.
  assert (Hpl : length par <= length (par ++ [b])) by (rewrite app_length; lia).
  destruct (eval_loop_honest_init E Hok k0 k1 _ beta Hh par Hpl) as (st0 & o0 & st1 & o1 & L0 & L1 & Hv & _).
  apply eval_loop_evals_init in L0, L1. destruct L0 as [L0 _]. destruct L1 as [L1 _].
  pose proof (states E k0 par b beta st0 st1 Hv) as (_ & _ & _ & _ & S0 & S1 & Hneg).
  set (X := if es_bit st0 then child E (es_seed st0) (negb b) else child E (es_seed st1) (negb b)).
  set (Y := if es_bit st0 then child E (es_seed st1) (negb b) else child E (es_seed st0) (negb b)).
  assert (HX : length X = 16) by (unfold X; destruct (es_bit st0); apply child_length; assumption).
  assert (HY : length Y = 16) by (unfold Y; destruct (es_bit st0); apply child_length; assumption).
  exists (negb (es_bit st0)), Y. split; [exact HY|]. intros Z HZ. set (D := seed_xor X Z).
  assert (HD : length D = 16) by (apply seed_xor_length; assumption).
  pose proof (f_wf E Hok k0 k1 par b beta Hh st0 st1 D HD) as [W0 W1].
  pose proof (f_beta E Hok k0 k1 par b beta Hh st0 st1 D HD) as HB. assert (Hm1 : 1 <= length par) by lia. specialize (HB Hm1). destruct HB as [B0 B1].
  pose proof (f_pass E Hok k0 k1 par b beta Hh st0 st1 _ _ L0 L1 Hv D HD) as Hpass.
  eexists. eexists. rewrite app_length. cbn [length]. split; [exact W0|]. split; [exact W1|]. split; [reflexivity|]. split; [reflexivity|].
  intros attrs Hat Hsib. rewrite sibling_snoc in Hsib. destruct (Hpass attrs [] Hat Hsib) as (v0 & v1 & t & H0 & H1 & Hvals). rewrite B0 in H0. rewrite B1 in H1.
  exists v0, v1, t. split; [exact H0|]. split; [exact H1|].
  intros a attr j Hi Hj. rewrite (Hvals a attr j Hi ltac:(lia)). unfold forged_val.
  destruct (list_eq_dec bool_dec attr (par ++ [b])) as [->|Hna].
  - rewrite (proj2 (Nat.leb_gt _ _)) by (rewrite app_length; cbn; lia). unfold target.
    assert (Hbl : length (beta ++ [of_Z 1]) = length beta + 1) by (rewrite app_length; reflexivity).
    rewrite vec_sub_get by lia. rewrite app_nth1 by exact Hj. unfold stray. rewrite vec_sub_get by (rewrite conv_word_length; lia).
    unfold shift_by. rewrite !(stretch_conv E _ _ Hok) by assumption. unfold sib_seed.
    assert (Hfix : seed_xor X D = Z) by (unfold D; apply seed_fix'; assumption).
    rewrite Hneg. unfold X, Y in *. destruct (es_bit st0); cbn [negb corrected]; rewrite Hfix; change (of_Z 0) with fzero; ring.
  - assert (Hal : length attr <= length par + 1) by (apply Hat; eapply nth_error_In; exact Hi).
    destruct (Nat.leb_spec (length attr) (length par)) as [Hl|Hl]; [reflexivity|].
    destruct (list_eq_dec bool_dec attr (par ++ [negb b])) as [->|Hns]; [exfalso; apply Hsib; eapply nth_error_In; exact Hi|].
    unfold point_value. replace (is_prefix attr (par ++ [b])) with false; [reflexivity|]. symmetry. apply not_true_iff_false. intros Hp.
    destruct (is_prefix_firstn _ _ Hp) as [Hf _]. rewrite firstn_all2 in Hf by (rewrite app_length; cbn; lia). contradiction.
Qed.
