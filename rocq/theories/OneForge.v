(** Proofs of C61: with zero hashes a report counts with fractions at many strings. *)
From Verif Require Import Base BaseFacts Field Util UtilFacts Env Prg PrgFacts PrgSpecFacts PrgSpecFacts2 Vidpf SpecPrg SpecVidpf SpecTree SpecHash
  VidpfFacts VidpfEvalFacts VidpfTreeFacts VidpfTreeFacts2 VidpfTreeFacts3 VidpfTreeFacts4 VidpfPropFacts VidpfPropFacts2
  Merkle Collect Server Driver Modes SpecCollect SpecMetrics SpecLevel SpecWhh SpecForge SpecModes SpecAbm SpecOne
  LevelFacts CollectInv RefuteFacts PairFacts HonestFacts MetricsFacts ForgeFacts ModesFacts ModesMain AbmForge HashFacts OneFacts.

Lemma half_twice x : fadd (half x) (half x) = x.
Proof.
  unfold half. assert (H : fadd (of_Z ((P + 1) / 2)) (of_Z ((P + 1) / 2)) = fone) by (apply f_ext; vm_compute; reflexivity).
  transitivity (fmul x (fadd (of_Z ((P + 1) / 2)) (of_Z ((P + 1) / 2)))); [ring|]. rewrite H. ring.
Qed.
Lemma fits_snoc pat : forall q d, fits pat (q ++ [d]) = fits pat q && match nth_error pat (length q) with Some None => true | Some (Some b) => Bool.eqb d b | None => false end.
Proof.
  induction pat as [|o pat IH]; intros [|x q] d; try reflexivity.
  - destruct o as [b|]; cbn [app fits length nth_error andb]; [destruct pat; apply andb_true_r|destruct pat; reflexivity].
  - cbn [app length nth_error]. destruct o as [b|]; cbn [fits]; rewrite IH; [rewrite andb_assoc|]; reflexivity.
Qed.
Lemma open_snoc pat n o : nth_error pat n = Some o -> open_bits pat (n + 1) = open_bits pat n + match o with None => 1 | Some _ => 0 end.
Proof.
  intros H. unfold open_bits. assert (Hf : firstn (n + 1) pat = firstn n pat ++ [o]).
  { revert n H. induction pat as [|x pat IH]; intros [|n] H; try discriminate; cbn in *; [congruence|]. f_equal. apply IH. exact H. }
  rewrite Hf, filter_app, app_length. destruct o; reflexivity.
Qed.
Lemma spread_length pat beta q : length (spread_value pat beta q) = length beta + 1.
Proof. unfold spread_value. destruct (fits pat q); [rewrite map_length, app_length; reflexivity|apply repeat_length]. Qed.
Lemma spread_split pat beta q : length q < length pat -> spread_value pat beta q = vec_add (spread_value pat beta (q ++ [false])) (spread_value pat beta (q ++ [true])).
Proof.
  intros Hq. destruct (nth_error pat (length q)) as [o|] eqn:Hn; [|apply nth_error_None in Hn; lia].
  pose proof (spread_length pat beta (q ++ [false])) as L0. pose proof (spread_length pat beta (q ++ [true])) as L1. pose proof (spread_length pat beta q) as L.
  unfold spread_value in *. rewrite !fits_snoc, !app_length, Hn in *. cbn [length] in *. rewrite (open_snoc _ _ _ Hn) in *.
  destruct (fits pat q); cbn [andb] in *.
  - destruct o as [[|]|]; cbn [Bool.eqb] in *; rewrite ?Nat.add_0_r in *.
    + rewrite vec_add_comm by lia. symmetry. apply vec_add_zero. lia.
    + symmetry. apply vec_add_zero. lia.
    + rewrite Nat.add_1_r. clear. induction (beta ++ [of_Z 1]) as [|x l IH]; [reflexivity|]. cbn [map vec_add]. f_equal; [symmetry; apply half_twice|exact IH].
  - symmetry. apply vec_add_zero. rewrite repeat_length. reflexivity.
Qed.

Definition zero16 : bytes := repeat 0%N 16.
Lemma xor_zero16 x : length x = 16 -> xor_vec x zero16 = x.
Proof. intros Hx. do 16 (destruct x as [|? x]; [discriminate|]). destruct x; [|discriminate]. cbn. rewrite !N.lxor_0_r. reflexivity. Qed.

Section Spread.
Variable E : env.
Hypothesis Hok : env_ok E.
Variables (pat : list (option bool)) (beta : list fld) (seed : bytes).
Hypothesis Hseed : length seed = 16.
Notation n := (length pat).
Notation len := (length beta).
Definition s_word (j : nat) : list fld :=
  let w := map (halved (open_bits pat (j + 1))) (beta ++ [of_Z 1]) in if Nat.odd (j + 1) then w else vec_neg w.
Definition s_cw (j : nat) : cor_word :=
  {| cw_seed := zero16; cw_bits := match nth j pat None with None => (true, true) | Some b => (negb b, b) end; cw_word := s_word j |}.
Definition s_key (i : bool) : vidpf_key :=
  {| key_idx := i; root_seed := seed; cor_words := map s_cw (seq 0 n); cs := repeat zero16 n |}.

Lemma s_word_length j : length (s_word j) = len + 1.
Proof. unfold s_word. destruct (Nat.odd (j + 1)); rewrite ?vec_neg_length, map_length, app_length; reflexivity. Qed.
Lemma s_typed i : key_typed (s_key i).
Proof.
  split; [exact Hseed|]. cbn [cor_words cs s_key]. split.
  - intros cw Hin. apply in_map_iff in Hin. destruct Hin as (j & <- & _). reflexivity.
  - intros c Hin. apply repeat_spec in Hin. subst c. reflexivity.
Qed.
Lemma s_usable i : usable n (s_key i).
Proof. split; [apply s_typed|]. cbn [cor_words cs s_key]. rewrite map_length, seq_length, repeat_length. lia. Qed.

(** both keys have the same seeds and proofs everywhere; the bits differ exactly where the pattern fits *)
Lemma s_evals q : length q <= n -> exists st0 st1 o0 o1,
  evals E (s_key false) len q st0 o0 /\ evals E (s_key true) len q st1 o1 /\
  es_level st0 = length q /\ es_level st1 = length q /\ es_seed st0 = es_seed st1 /\ es_proof st0 = es_proof st1 /\
  length (es_seed st0) = 16 /\
  (if fits pat q then es_bit st0 = Nat.odd (length q) /\ es_bit st1 = negb (es_bit st0) else es_bit st0 = es_bit st1) /\
  forall x0 x1, o0 = Some x0 -> o1 = Some x1 -> vec_add x0 x1 = spread_value pat beta q.
Proof.
  induction q as [|d q IH] using rev_ind; intros Hq.
  - exists (eval_init (s_key false)), (eval_init (s_key true)), None, None. split; [apply ev_nil|]. split; [apply ev_nil|].
    cbn [eval_init es_level es_seed es_proof es_bit s_key key_idx root_seed length Nat.odd]. repeat (split; [reflexivity|]). split; [exact Hseed|].
    split; [destruct pat; cbn; auto|]. discriminate.
  - rewrite app_length in Hq. cbn [length] in Hq. destruct IH as (st0 & st1 & o0 & o1 & H0 & H1 & L0 & L1 & Hs & Hp & Hsl & Hb & _); [lia|].
    set (cw := s_cw (length q)).
    assert (Hcw : nth_error (map s_cw (seq 0 n)) (length q) = Some cw).
    { apply map_nth_error. rewrite (nth_error_nth' _ 0) by (rewrite seq_length; lia). f_equal. apply seq_nth. lia. }
    assert (Hc : nth_error (repeat zero16 n) (length q) = Some zero16).
    { rewrite (nth_error_nth' _ zero16) by (rewrite repeat_length; lia). f_equal. apply nth_repeat. }
    assert (Hsl1 : length (es_seed st1) = 16) by congruence.
    assert (B0 := eval_bit_spec E Hok (s_key false) st0 d (bits_to_bitstring (q ++ [d])) len cw zero16 Hsl).
    assert (B1 := eval_bit_spec E Hok (s_key true) st1 d (bits_to_bitstring (q ++ [d])) len cw zero16 Hsl1).
    rewrite L0 in B0. rewrite L1 in B1. specialize (B0 ltac:(intros _; split; [exact Hcw|reflexivity]) ltac:(intros _; exact Hc)).
    specialize (B1 ltac:(intros _; split; [exact Hcw|reflexivity]) ltac:(intros _; exact Hc)). cbv zeta in B0, B1.
    assert (Hcor : forall b s, length s = 16 -> corrected b s (cw_seed cw) = s) by (intros [|] s Hl; [apply (xor_zero16 s Hl)|reflexivity]).
    rewrite Hcor in B0, B1 by (apply child_length; assumption). rewrite <- Hs in B1.
    assert (Hpi : forall s, xor_vec (firstn HASH_SIZE (node_hash E (bits_to_bitstring (q ++ [d])) s)) zero16 = firstn HASH_SIZE (node_hash E (bits_to_bitstring (q ++ [d])) s)).
    { intros s. apply xor_zero16. unfold node_hash. rewrite firstn_length, (blake_len E Hok). reflexivity. }
    rewrite Hpi in B0, B1.
    eexists _, _, _, _. split; [eapply ev_snoc; [exact H0|exact B0]|]. split; [eapply ev_snoc; [exact H1|exact B1]|]. clear B0 B1.
    cbn [es_level es_seed es_proof es_bit]. rewrite app_length. cbn [length key_idx s_key]. split; [lia|]. split; [lia|]. split; [reflexivity|].
    split. { rewrite Hp. destruct (xorb true _), (xorb true _); reflexivity. }
    split; [apply conv_seed_length; [exact Hok|apply child_length; assumption]|].
    set (W := conv_word E (child E (es_seed st0) d) len). assert (HW : length W = len + 1) by apply conv_word_length.
    change (cw_word cw) with (s_word (length q)). pose proof (s_word_length (length q)) as Hsw.
    destruct (nth_error pat (length q)) as [o|] eqn:Ho; [|apply nth_error_None in Ho; lia].
    assert (Ht : tget (cw_bits cw) d = match o with None => true | Some b => Bool.eqb d b end).
    { unfold cw, s_cw. cbn [cw_bits]. rewrite (nth_error_nth _ _ _ Ho). destruct o as [b|]; [destruct b, d; reflexivity|destruct d; reflexivity]. }
    rewrite Ht. unfold spread_value. rewrite fits_snoc, Ho, app_length. cbn [length].
    assert (Hzero : forall b : bool, vec_add (if b then vec_add W (s_word (length q)) else W) (vec_neg (if b then vec_add W (s_word (length q)) else W)) = repeat (of_Z 0) (len + 1)).
    { intros b. rewrite fld_word_off. f_equal. destruct b; rewrite ?vec_add_length; exact HW. }
    destruct (fits pat q); cbn [andb].
    + destruct Hb as [Hb0 Hb1]. rewrite Hb1.
      replace (match o with Some b => Bool.eqb d b | None => true end) with (match o with None => true | Some b => Bool.eqb d b end) by (destruct o; reflexivity).
      destruct (match o with None => true | Some b => Bool.eqb d b end).
      * assert (Hodd : Nat.odd (length q + 1) = negb (es_bit st0)) by (rewrite Nat.add_1_r, Nat.odd_succ, Hb0, <- Nat.negb_odd; reflexivity).
        rewrite !andb_true_r. split; [rewrite Hodd; destruct (es_bit st0); auto|]. intros x0 x1 X0 X1. injection X0 as <-. injection X1 as <-.
        unfold s_word. rewrite Hodd. set (V := map _ (beta ++ [of_Z 1])). assert (HV : length V = len + 1) by (unfold V; rewrite map_length, app_length; reflexivity).
        destruct (es_bit st0); cbn [negb xorb].
        -- apply (nth_ext _ _ (of_Z 0) (of_Z 0)); [rewrite vec_add_length; lia|]. intros j Hj. rewrite vec_add_length in Hj.
           rewrite vec_add_get, vec_neg_get, vec_add_get, vec_neg_get by (rewrite ?vec_add_length; lia). ring.
        -- apply (nth_ext _ _ (of_Z 0) (of_Z 0)); [rewrite !vec_add_length; lia|]. intros j Hj. rewrite !vec_add_length in Hj.
           rewrite vec_add_get, vec_add_get, vec_neg_get by (rewrite ?vec_add_length; lia). ring.
      * rewrite !andb_false_r. split; [reflexivity|]. intros x0 x1 X0 X1. injection X0 as <-. injection X1 as <-. apply (Hzero true).
    + rewrite Hb. split; [reflexivity|]. intros x0 x1 X0 X1. injection X0 as <-. injection X1 as <-. apply Hzero.
Qed.
Lemma s_pair q s0 s1 o0 o1 : length q <= n -> evals E (s_key false) len q s0 o0 -> evals E (s_key true) len q s1 o1 ->
  es_level s0 = length q /\ es_level s1 = length q /\ es_seed s0 = es_seed s1 /\ es_proof s0 = es_proof s1 /\ length (es_seed s0) = 16 /\
  forall x0 x1, o0 = Some x0 -> o1 = Some x1 -> vec_add x0 x1 = spread_value pat beta q.
Proof.
  intros Hq H0 H1. destruct (s_evals q Hq) as (t0 & t1 & p0 & p1 & G0 & G1 & A & B & C & D & F & _ & G).
  destruct (evals_fun _ _ _ _ _ _ _ _ H0 G0) as [-> ->]. destruct (evals_fun _ _ _ _ _ _ _ _ H1 G1) as [-> ->]. auto 10.
Qed.

Lemma s_pass paths tr : 1 <= n -> (forall path, In path paths -> 1 <= length path <= n) ->
  exists v0 v1 b0 b1 t, eval_tree E (s_key false) paths len tr = Ret (v0, b0, t) /\ eval_tree E (s_key true) paths len tr = Ret (v1, b1, t) /\
    vec_add b0 b1 = beta /\
    forall i path w0 w1, nth_error paths i = Some path -> nth_error v0 i = Some w0 -> nth_error v1 i = Some w1 -> shares_of w0 w1 (spread_value pat beta path).
Proof.
  intros Hn Hp. assert (Hroot : vec_add (spread_value pat beta [false]) (spread_value pat beta [true]) = beta ++ [of_Z 1]).
  { rewrite <- (spread_split pat beta [] ltac:(cbn; lia) : _ = vec_add (spread_value pat beta [false]) (spread_value pat beta [true])). unfold spread_value. destruct pat; cbn; apply map_id. }
  destruct (tree_pass E Hok (s_key false) (s_key true) len n (s_typed false) (s_typed true) eq_refl eq_refl Hn (wf_evaluable E Hok _ _ len (s_usable false)) (wf_evaluable E Hok _ _ len (s_usable true)) (spread_value pat beta)) with (paths := paths) (tr := tr) as (v0 & v1 & t & H0 & H1 & _).
  - intros q s0 x0 s1 x1 Hq A B. apply (s_pair q s0 s1 _ _ Hq A B); reflexivity.
  - intros q _ Hq. apply spread_split. exact Hq.
  - rewrite Hroot. rewrite nth_error_app2, Nat.sub_diag by lia. reflexivity.
  - exact Hp.
  - intros path s0 x0 s1 x1 Hin A B. apply (s_pair path s0 s1 _ _ (proj2 (Hp _ Hin)) A B).
  - exists v0, v1, (beta_share E len (s_key false)), (beta_share E len (s_key true)), t. split; [exact H0|]. split; [exact H1|].
    destruct (C05_lemma _ _ _ _ _ _ _ _ _ _ _ Hok (s_typed false) (s_typed true) eq_refl eq_refl H0 H1) as (_ & HR & _ & _ & Hv).
    split.
    + destruct HR as (l0 & r0 & l1 & r1 & a & b & a' & b' & SL0 & SR0 & SL1 & SR1 & _ & -> & ->).
      assert (Hnf : [false] <> []) by discriminate. assert (Hnt : [true] <> []) by discriminate.
      destruct (share_at_evals _ _ _ _ _ _ Hnf SL0) as (sl0 & EL0 & _). destruct (share_at_evals _ _ _ _ _ _ Hnt SR0) as (sr0 & ER0 & _).
      destruct (share_at_evals _ _ _ _ _ _ Hnf SL1) as (sl1 & EL1 & _). destruct (share_at_evals _ _ _ _ _ _ Hnt SR1) as (sr1 & ER1 & _).
      destruct (evals_typed E Hok _ len (s_typed false) _ _ _ EL0) as [_ G1]. destruct (evals_typed E Hok _ len (s_typed false) _ _ _ ER0) as [_ G2].
      destruct (evals_typed E Hok _ len (s_typed true) _ _ _ EL1) as [_ G3]. destruct (evals_typed E Hok _ len (s_typed true) _ _ _ ER1) as [_ G4].
      specialize (G1 _ eq_refl). specialize (G2 _ eq_refl). specialize (G3 _ eq_refl). specialize (G4 _ eq_refl).
      destruct (s_pair [false] _ _ _ _ Hn EL0 EL1) as (_ & _ & _ & _ & _ & HL). destruct (s_pair [true] _ _ _ _ Hn ER0 ER1) as (_ & _ & _ & _ & _ & HRt).
      rewrite <- (HL _ _ eq_refl eq_refl), <- (HRt _ _ eq_refl eq_refl) in Hroot. rewrite <- vec_add_perm in Hroot by lia.
      apply (nth_ext _ _ (of_Z 0) (of_Z 0)); [rewrite vec_add_length, firstn_length, vec_add_length; lia|].
      intros j Hj. rewrite vec_add_length, firstn_length, vec_add_length in Hj. rewrite vec_add_get by (rewrite firstn_length, vec_add_length; lia). rewrite !firstn_nth by lia.
      rewrite <- (vec_add_get (vec_add l0 r0)) by (rewrite vec_add_length; lia). rewrite Hroot. apply app_nth1. lia.
    + intros i path w0 w1 Hi V0 V1. assert (Hin : In path paths) by (eapply nth_error_In; exact Hi). assert (Hne : path <> []) by (destruct (Hp _ Hin); destruct path; [cbn in *; lia|discriminate]).
      destruct (Hv _ _ _ _ Hi V0 V1) as (pf & S0 & S1). apply share_at_evals in S0; [|exact Hne]. apply share_at_evals in S1; [|exact Hne]. destruct S0 as (s0 & A0 & _). destruct S1 as (s1 & A1 & _).
      destruct (evals_typed E Hok _ len (s_typed false) _ _ _ A0) as [_ L0]. destruct (evals_typed E Hok _ len (s_typed true) _ _ _ A1) as [_ L1]. specialize (L0 _ eq_refl). specialize (L1 _ eq_refl).
      apply vec_add_shares; [congruence|]. apply (s_pair path s0 s1 _ _ (proj2 (Hp _ Hin)) A0 A1); reflexivity.
Qed.

(** nothing coincides by accident *)
Lemma s_reach i q st : node_state E (s_key i) len q st -> exists o, evals E (s_key i) len q st o.
Proof. intros (bs & out & H). apply eval_loop_evals_init in H. destruct H as [H _]. eauto. Qed.
Lemma s_same q s0 s1 : length q <= n -> node_state E (s_key false) len q s0 -> node_state E (s_key true) len q s1 ->
  es_level s0 = length q /\ es_level s1 = length q /\ es_seed s0 = es_seed s1 /\ es_proof s0 = es_proof s1 /\ length (es_seed s0) = 16.
Proof. intros Hq R0 R1. apply s_reach in R0, R1. destruct R0 as [o0 H0]. destruct R1 as [o1 H1]. destruct (s_pair q s0 s1 o0 o1 Hq H0 H1) as (A & B & C & D & F & _). auto. Qed.
Lemma s_mask i q b : q <> [] -> length q <= n -> mask (s_key i) q b = zero16.
Proof.
  intros Hne Hq. unfold mask. destruct b; [|reflexivity]. cbn [cs s_key]. rewrite (nth_indep _ _ zero16); [apply nth_repeat|].
  rewrite repeat_length. destruct q; [contradiction|]. cbn [length] in *. lia.
Qed.
Lemma s_pre i st d : length (es_seed st) = 16 -> pre_seed E (s_key i) st d = child E (es_seed st) d.
Proof.
  intros Hs. unfold pre_seed, expand. rewrite !(expand_dir_spec E Hok) by exact Hs. cbn [po_seeds fst snd bind].
  assert (Hc : (if d then snd (if negb true then ks_block E (mask_key (es_seed st)) 0 else repeat 0%N 16, ks_block E (mask_key (es_seed st)) 1) else fst (ks_block E (mask_key (es_seed st)) 0, repeat 0%N 16)) = child E (es_seed st) d) by (destruct d; reflexivity).
  destruct (es_bit st); [|destruct d; reflexivity]. cbn [cor_words s_key].
  destruct (nth_error (map s_cw (seq 0 n)) (es_level st)) as [cw|] eqn:Hn; [|destruct d; reflexivity].
  apply nth_error_In in Hn. apply in_map_iff in Hn. destruct Hn as (j & <- & _). cbn [cw_seed s_cw].
  pose proof (child_length E Hok (es_seed st) d Hs) as Hl. destruct d; exact (xor_zero16 _ Hl).
Qed.
Lemma s_no_coincidence : no_coincidence E (s_key false) (s_key true) len (fun q => length q <= n).
Proof.
  split; [|split; [|split]].
  - intros q s0 s1 Hq R0 R1 _. apply (s_same q s0 s1 Hq R0 R1).
  - intros q r s0 s1 u0 u1 Hq Hr _ _ R0 R1 _ _ Hne. exfalso. apply Hne. apply (s_same q s0 s1 Hq R0 R1).
  - intros q d s0 s1 u0 u1 Hq R0 R1 U0 U1 _. rewrite app_length in Hq. cbn [length] in Hq.
    destruct (s_same q s0 s1 ltac:(lia) R0 R1) as (_ & _ & _ & Hp & _). assert (Hq' : length (q ++ [d]) <= n) by (rewrite app_length; cbn; lia).
    destruct (s_same (q ++ [d]) u0 u1 Hq' U0 U1) as (_ & _ & Hs & _). assert (Hne : q ++ [d] <> []) by (destruct q; discriminate).
    unfold contribution. rewrite !s_mask by assumption. rewrite Hp, Hs. reflexivity.
  - intros q d s0 s1 t w0 w1 Hq R0 R1 C0 C1. rewrite app_length in Hq. cbn [length] in Hq.
    destruct (s_same q s0 s1 ltac:(lia) R0 R1) as (_ & _ & Hs & _ & Hl). rewrite !s_pre in * by congruence. rewrite Hs in C0. congruence.
Qed.
End Spread.

Lemma C61_refuted_lemma E pat beta seed : env_ok E -> 1 <= length pat -> length seed = 16 ->
  exists k0 k1, usable (length pat) k0 /\ usable (length pat) k1 /\ key_idx k0 = false /\ key_idx k1 = true /\ root_seed k0 = seed /\ root_seed k1 = seed /\ same_public k0 k1 /\
    no_coincidence E k0 k1 (length beta) (fun q => length q <= length pat) /\
    forall paths tr, (forall path, In path paths -> 1 <= length path <= length pat) ->
    exists v0 v1 b0 b1 t, eval_tree E k0 paths (length beta) tr = Ret (v0, b0, t) /\ eval_tree E k1 paths (length beta) tr = Ret (v1, b1, t) /\
      vec_add b0 b1 = beta /\
      forall i path w0 w1, nth_error paths i = Some path -> nth_error v0 i = Some w0 -> nth_error v1 i = Some w1 -> shares_of w0 w1 (spread_value pat beta path).
Proof.
  intros Hok Hn Hs. exists (s_key pat beta seed false), (s_key pat beta seed true). split; [apply s_usable; exact Hs|]. split; [apply s_usable; exact Hs|].
  repeat (split; [reflexivity|]). split; [split; reflexivity|]. split; [apply s_no_coincidence; assumption|]. intros paths tr. apply s_pass; assumption.
Qed.
