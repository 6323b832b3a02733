(** Proofs for C63: the number of heavy prefixes; keys with zero hashes and arbitrary values per level. *)
From Verif Require Import Base BaseFacts Field Util UtilFacts Env Prg PrgFacts PrgSpecFacts PrgSpecFacts2 Vidpf SpecPrg SpecVidpf SpecTree
  VidpfFacts VidpfEvalFacts VidpfTreeFacts VidpfTreeFacts2 VidpfTreeFacts3 VidpfTreeFacts4
  Merkle Collect Server Driver SpecCollect SpecCheck SpecLevel SpecWhh SpecForge SpecOne SpecFlood LevelFacts PairFacts ForgeFacts AbmForge HashFacts OneFacts WhhFacts WhhFacts2 OneForge.

(** *** counting *)
Lemma prefix_same a p q : is_prefix p a = true -> is_prefix q a = true -> length p = length q -> p = q.
Proof. intros Hp Hq Hl. apply is_prefix_firstn in Hp, Hq. destruct Hp as [Hp _], Hq as [Hq _]. rewrite Hl in Hp. congruence. Qed.
Lemma one_prefix a n ps : NoDup ps -> (forall p, In p ps -> length p = n) -> length (filter (fun p => is_prefix p a) ps) <= 1.
Proof.
  intros Hnd Hl. assert (Hnd' : NoDup (filter (fun p => is_prefix p a) ps)) by (apply NoDup_filter; exact Hnd).
  assert (Hs : forall p q, In p (filter (fun p => is_prefix p a) ps) -> In q (filter (fun p => is_prefix p a) ps) -> p = q).
  { intros p q Hp Hq. apply filter_In in Hp, Hq. apply (prefix_same a); [apply Hp|apply Hq|]. rewrite !Hl; [reflexivity|apply Hq|apply Hp]. }
  destruct (filter (fun p => is_prefix p a) ps) as [|p [|q l]]; cbn; try lia.
  inversion Hnd' as [|? ? Hni _]; subst. exfalso. apply Hni. left. apply (Hs q p); cbn; auto.
Qed.
Fixpoint total (L : list entry) (ps : list (list bool)) : Z := match ps with [] => 0%Z | p :: ps => (count L p + total L ps)%Z end.
Lemma total_cons e L ps : total (e :: L) ps = (total L ps + (if e_ok e then Z.of_nat (length (filter (fun p => is_prefix p (e_alpha e)) ps)) else 0))%Z.
Proof.
  induction ps as [|p ps IH]; [destruct (e_ok e); reflexivity|]. cbn [total filter]. rewrite IH. unfold count, supporters. cbn [filter].
  destruct (e_ok e); cbn [andb]; [|lia]. destruct (is_prefix p (e_alpha e)); cbn [length]; lia.
Qed.
Lemma total_le L n ps : NoDup ps -> (forall p, In p ps -> length p = n) -> (total L ps <= accepted L)%Z.
Proof.
  intros Hnd Hl. unfold accepted. induction L as [|e L IH].
  - cbn. clear. induction ps as [|p ps IH]; [cbn; lia|]. cbn [total]. unfold count, supporters. cbn [filter length]. lia.
  - rewrite total_cons. cbn [filter]. pose proof (one_prefix (e_alpha e) n ps Hnd Hl). destruct (e_ok e); cbn [length]; lia.
Qed.
Lemma heavy_total thr L ps : (forall p, In p ps -> heavy thr L p = true) -> (Z.of_nat (length ps) * thr <= total L ps)%Z.
Proof.
  induction ps as [|p ps IH]; intros H; [cbn; lia|]. cbn [total length]. specialize (IH (fun q Hq => H q (or_intror Hq))).
  pose proof (H p (or_introl eq_refl)) as Hp. apply Z.leb_le in Hp. lia.
Qed.
Lemma all_paths_nodup n : NoDup (all_paths n).
Proof.
  induction n as [|n IH]; [constructor; [intros []|constructor]|]. cbn [all_paths]. assert (Hm : forall d, NoDup (map (cons d) (all_paths n))).
  { intros d. apply FinFun.Injective_map_NoDup; [intros a b H; injection H as H; exact H|exact IH]. }
  assert (Happ : forall a b : list (list bool), NoDup a -> NoDup b -> (forall x, In x a -> ~ In x b) -> NoDup (a ++ b)).
  { clear. induction a as [|x a IH]; intros b Ha Hb Hd; [exact Hb|]. inversion Ha; subst. cbn. constructor.
    - rewrite in_app_iff. intros [Hx|Hx]; [contradiction|]. apply (Hd x (or_introl eq_refl) Hx).
    - apply IH; [assumption|assumption|]. intros y Hy. apply Hd. right. exact Hy. }
  apply Happ; [apply Hm|apply Hm|]. intros x H1 H2. apply in_map_iff in H1, H2. destruct H1 as (y & <- & _), H2 as (z & Hz & _). discriminate.
Qed.
Lemma all_paths_count n : length (all_paths n) = 2 ^ n.
Proof. induction n as [|n IH]; [reflexivity|]. cbn [all_paths]. rewrite app_length, !map_length, IH. cbn. lia. Qed.
Lemma heavy_bound thr L n : (Z.of_nat (length (filter (heavy thr L) (all_paths n))) * thr <= accepted L)%Z.
Proof.
  eapply Z.le_trans; [apply heavy_total|apply (total_le L n)].
  - intros p Hp. apply filter_In in Hp. apply Hp.
  - apply NoDup_filter, all_paths_nodup.
  - intros p Hp. apply filter_In in Hp. apply all_paths_length. apply Hp.
Qed.

(** *** a pair of keys whose values are known *)
Section Check.
Variables (E : env) (k0 k1 : vidpf_key) (len bits : nat) (V : list bool -> list fld).
Hypothesis Hval : forall p j, p <> [] -> length p <= bits -> j <= len -> fadd (nth j (word_at E k0 len p) (of_Z 0)) (nth j (word_at E k1 len p) (of_Z 0)) = nth j (V p) (of_Z 0).
Hypothesis Hprf : forall p, p <> [] -> length p <= bits -> proof_at E k0 len p = proof_at E k1 len p.
Hypothesis Hroot : fadd (nth len (V [false]) (of_Z 0)) (nth len (V [true]) (of_Z 0)) = of_Z 1.
Hypothesis Hsplit : forall p j, p <> [] -> length p < bits -> j < len -> fadd (nth j (V (p ++ [false])) (of_Z 0)) (nth j (V (p ++ [true])) (of_Z 0)) = nth j (V p) (of_Z 0).

Lemma check_get first level y y0 y1 j : j <= len ->
  nth j (check_at first len level y y0 y1) (of_Z 0) =
  (let parent := if level =? 0 then repeat (of_Z 1) (len + 1) else y in
   if first then fsub (fsub (nth j parent (of_Z 0)) (nth j y0 (of_Z 0))) (nth j y1 (of_Z 0))
   else if level =? 0 then fadd (nth j y0 (of_Z 0)) (nth j y1 (of_Z 0))
   else fsub (fadd (nth j y0 (of_Z 0)) (nth j y1 (of_Z 0))) (nth j parent (of_Z 0))).
Proof. intros Hj. unfold check_at. erewrite nth_map_in; [reflexivity|]. apply nth_error_seq. lia. Qed.

Lemma pair_check level p : length p = level -> level < bits ->
  used level len (check_at true len level (word_at E k0 len p) (word_at E k0 len (p ++ [false])) (word_at E k0 len (p ++ [true]))) =
  used level len (check_at false len level (word_at E k1 len p) (word_at E k1 len (p ++ [false])) (word_at E k1 len (p ++ [true]))).
Proof.
  intros Hp Hl.
  assert (Hne : forall d, p ++ [d] <> [] /\ length (p ++ [d]) <= bits) by (intros d; split; [destruct p; discriminate|rewrite app_length; cbn; lia]).
  unfold used. destruct (level =? 0) eqn:H0.
  - f_equal. rewrite !check_get by lia. rewrite H0. cbv zeta. rewrite repeat_get by lia.
    apply Nat.eqb_eq in H0. destruct p; [|cbn in Hp; lia]. cbn [app] in *.
    rewrite <- Hroot, <- !Hval by (try discriminate; cbn; lia). ring.
  - apply (nth_ext _ _ (of_Z 0) (of_Z 0)); [rewrite !firstn_length, !check_at_length; reflexivity|].
    intros j Hj. rewrite firstn_length, check_at_length in Hj.
    assert (Hf : forall l : list fld, nth j (firstn len l) (of_Z 0) = nth j l (of_Z 0)) by (intros l; apply firstn_nth; lia).
    assert (Hpn : p <> []) by (intros ->; cbn in Hp; subst level; discriminate).
    rewrite !Hf, !check_get by lia. rewrite H0. cbv zeta. apply fsub_shuffle.
    rewrite !Hval by (try apply Hne; try exact Hpn; lia). symmetry. apply Hsplit; [exact Hpn|lia|lia].
Qed.
Lemma pair_proofs paths : (forall q, In q paths -> q <> [] /\ length q <= bits) -> proofs_xor E len paths k0 = proofs_xor E len paths k1.
Proof.
  intros Hp. unfold proofs_xor. generalize (repeat 0%N 16). induction paths as [|q paths IH]; intros acc; [reflexivity|]. cbn [fold_left].
  destruct (Hp q (or_introl eq_refl)) as [Hne Hl]. rewrite (Hprf q Hne Hl). apply IH. intros q' Hq'. apply Hp. right. exact Hq'.
Qed.
Lemma pair_strings level paths : (forall p, In p paths -> length p = level) -> level < bits ->
  verification_string E true len level paths k0 = verification_string E false len level paths k1.
Proof.
  intros Hp Hl. unfold verification_string. f_equal.
  - apply pair_proofs. intros q Hq. apply children_in in Hq. destruct Hq as (p & d & Hin & ->). split; [destruct p; discriminate|].
    rewrite app_length, (Hp _ Hin). cbn. lia.
  - unfold check_string_of. do 4 f_equal. f_equal. f_equal. apply map_ext_in. intros p Hin. apply pair_check; [apply Hp; exact Hin|exact Hl].
Qed.
End Check.

(** *** keys with equal seeds and zero hashes: the value [wv l] at every string of l bits that fits *)
Section Keys.
Variable E : env.
Hypothesis Hok : env_ok E.
Variables (pat : list (option bool)) (len : nat) (wv : nat -> list fld) (seed : bytes).
Hypothesis Hseed : length seed = 16.
Hypothesis Hwv : forall l, length (wv l) = len + 1.
Notation n := (length pat).
Definition z_word (j : nat) : list fld := if Nat.odd (j + 1) then wv (j + 1) else vec_neg (wv (j + 1)).
Definition z_cw (j : nat) : cor_word :=
  {| cw_seed := zero16; cw_bits := match nth j pat None with None => (true, true) | Some b => (negb b, b) end; cw_word := z_word j |}.
Definition z_key (i : bool) : vidpf_key :=
  {| key_idx := i; root_seed := seed; cor_words := map z_cw (seq 0 n); cs := repeat zero16 n |}.
Definition z_value (q : list bool) : list fld := if fits pat q then wv (length q) else repeat (of_Z 0) (len + 1).

Lemma z_word_length j : length (z_word j) = len + 1.
Proof. unfold z_word. destruct (Nat.odd (j + 1)); rewrite ?vec_neg_length; apply Hwv. Qed.
Lemma z_typed i : key_typed (z_key i).
Proof.
  split; [exact Hseed|]. cbn [cor_words cs z_key]. split.
  - intros cw Hin. apply in_map_iff in Hin. destruct Hin as (j & <- & _). reflexivity.
  - intros c Hin. apply repeat_spec in Hin. subst c. reflexivity.
Qed.
Lemma z_usable i : usable n (z_key i).
Proof. split; [apply z_typed|]. cbn [cor_words cs z_key]. rewrite map_length, seq_length, repeat_length. lia. Qed.

Lemma z_evals q : length q <= n -> exists st0 st1 o0 o1,
  evals E (z_key false) len q st0 o0 /\ evals E (z_key true) len q st1 o1 /\
  es_level st0 = length q /\ es_level st1 = length q /\ es_seed st0 = es_seed st1 /\ es_proof st0 = es_proof st1 /\
  length (es_seed st0) = 16 /\
  (if fits pat q then es_bit st0 = Nat.odd (length q) /\ es_bit st1 = negb (es_bit st0) else es_bit st0 = es_bit st1) /\
  forall x0 x1, o0 = Some x0 -> o1 = Some x1 -> length x0 = len + 1 /\ length x1 = len + 1 /\ vec_add x0 x1 = z_value q.
Proof.
  induction q as [|d q IH] using rev_ind; intros Hq.
  - exists (eval_init (z_key false)), (eval_init (z_key true)), None, None. split; [apply ev_nil|]. split; [apply ev_nil|].
    cbn [eval_init es_level es_seed es_proof es_bit z_key key_idx root_seed length Nat.odd]. repeat (split; [reflexivity|]). split; [exact Hseed|].
    split; [destruct pat; cbn; auto|]. discriminate.
  - rewrite app_length in Hq. cbn [length] in Hq. destruct IH as (st0 & st1 & o0 & o1 & H0 & H1 & L0 & L1 & Hs & Hp & Hsl & Hb & _); [lia|].
    set (cw := z_cw (length q)).
    assert (Hcw : nth_error (map z_cw (seq 0 n)) (length q) = Some cw).
    { apply map_nth_error. rewrite (nth_error_nth' _ 0) by (rewrite seq_length; lia). f_equal. apply seq_nth. lia. }
    assert (Hc : nth_error (repeat zero16 n) (length q) = Some zero16).
    { rewrite (nth_error_nth' _ zero16) by (rewrite repeat_length; lia). f_equal. apply nth_repeat. }
    assert (Hsl1 : length (es_seed st1) = 16) by congruence.
    assert (B0 := eval_bit_spec E Hok (z_key false) st0 d (bits_to_bitstring (q ++ [d])) len cw zero16 Hsl).
    assert (B1 := eval_bit_spec E Hok (z_key true) st1 d (bits_to_bitstring (q ++ [d])) len cw zero16 Hsl1).
    rewrite L0 in B0. rewrite L1 in B1. specialize (B0 ltac:(intros _; split; [exact Hcw|reflexivity]) ltac:(intros _; exact Hc)).
    specialize (B1 ltac:(intros _; split; [exact Hcw|reflexivity]) ltac:(intros _; exact Hc)). cbv zeta in B0, B1.
    assert (Hcor : forall b s, length s = 16 -> corrected b s (cw_seed cw) = s) by (intros [|] s Hl; [apply (xor_zero16 s Hl)|reflexivity]).
    rewrite Hcor in B0, B1 by (apply child_length; assumption). rewrite <- Hs in B1.
    assert (Hpi : forall s, xor_vec (firstn HASH_SIZE (node_hash E (bits_to_bitstring (q ++ [d])) s)) zero16 = firstn HASH_SIZE (node_hash E (bits_to_bitstring (q ++ [d])) s)).
    { intros s. apply xor_zero16. unfold node_hash. rewrite firstn_length, (blake_len E Hok). reflexivity. }
    rewrite Hpi in B0, B1.
    eexists _, _, _, _. split; [eapply ev_snoc; [exact H0|exact B0]|]. split; [eapply ev_snoc; [exact H1|exact B1]|]. clear B0 B1.
    cbn [es_level es_seed es_proof es_bit]. rewrite app_length. cbn [length key_idx z_key]. split; [lia|]. split; [lia|]. split; [reflexivity|].
    split. { rewrite Hp. destruct (xorb true _), (xorb true _); reflexivity. }
    split; [apply conv_seed_length; [exact Hok|apply child_length; assumption]|].
    set (W := conv_word E (child E (es_seed st0) d) len). assert (HW : length W = len + 1) by apply conv_word_length.
    change (cw_word cw) with (z_word (length q)). pose proof (z_word_length (length q)) as Hsw.
    destruct (nth_error pat (length q)) as [o|] eqn:Ho; [|apply nth_error_None in Ho; lia].
    assert (Ht : tget (cw_bits cw) d = match o with None => true | Some b => Bool.eqb d b end).
    { unfold cw, z_cw. cbn [cw_bits]. rewrite (nth_error_nth _ _ _ Ho). destruct o as [b|]; [destruct b, d; reflexivity|destruct d; reflexivity]. }
    rewrite Ht. unfold z_value. rewrite fits_snoc, Ho, app_length. cbn [length].
    assert (Hlen : forall (b : bool), length (if b then vec_add W (z_word (length q)) else W) = len + 1) by (intros [|]; rewrite ?vec_add_length; exact HW).
    assert (Hzero : forall b : bool, vec_add (if b then vec_add W (z_word (length q)) else W) (vec_neg (if b then vec_add W (z_word (length q)) else W)) = repeat (of_Z 0) (len + 1)).
    { intros b. rewrite fld_word_off. f_equal. apply Hlen. }
    destruct (fits pat q); cbn [andb].
    + destruct Hb as [Hb0 Hb1]. rewrite Hb1.
      replace (match o with Some b => Bool.eqb d b | None => true end) with (match o with None => true | Some b => Bool.eqb d b end) by (destruct o; reflexivity).
      destruct (match o with None => true | Some b => Bool.eqb d b end).
      * assert (Hodd : Nat.odd (length q + 1) = negb (es_bit st0)) by (rewrite Nat.add_1_r, Nat.odd_succ, Hb0, <- Nat.negb_odd; reflexivity).
        rewrite !andb_true_r. split; [rewrite Hodd; destruct (es_bit st0); auto|]. intros x0 x1 X0 X1. injection X0 as <-. injection X1 as <-.
        split; [apply Hlen|]. split; [rewrite vec_neg_length; apply Hlen|].
        unfold z_word. rewrite Hodd. set (V := wv _). assert (HV : length V = len + 1) by apply Hwv.
        destruct (es_bit st0); cbn [negb xorb].
        -- apply (nth_ext _ _ (of_Z 0) (of_Z 0)); [rewrite vec_add_length; lia|]. intros j Hj. rewrite vec_add_length in Hj.
           rewrite vec_add_get, vec_neg_get, vec_add_get, vec_neg_get by (rewrite ?vec_add_length; lia). ring.
        -- apply (nth_ext _ _ (of_Z 0) (of_Z 0)); [rewrite !vec_add_length; lia|]. intros j Hj. rewrite !vec_add_length in Hj.
           rewrite vec_add_get, vec_add_get, vec_neg_get by (rewrite ?vec_add_length; lia). ring.
      * rewrite !andb_false_r. split; [reflexivity|]. intros x0 x1 X0 X1. injection X0 as <-. injection X1 as <-.
        split; [apply (Hlen true)|]. split; [rewrite vec_neg_length; apply (Hlen true)|apply (Hzero true)].
    + rewrite Hb. split; [reflexivity|]. intros x0 x1 X0 X1. injection X0 as <-. injection X1 as <-.
      split; [apply Hlen|]. split; [rewrite vec_neg_length; apply Hlen|apply Hzero].
Qed.
Lemma z_at q : q <> [] -> length q <= n ->
  proof_at E (z_key false) len q = proof_at E (z_key true) len q /\ length (word_at E (z_key false) len q) = len + 1 /\ length (word_at E (z_key true) len q) = len + 1 /\
  vec_add (word_at E (z_key false) len q) (word_at E (z_key true) len q) = z_value q.
Proof.
  intros Hne Hq. destruct (z_evals q Hq) as (s0 & s1 & o0 & o1 & G0 & G1 & _ & _ & _ & D & _ & _ & G).
  destruct o0 as [x0|]; [|inversion G0; subst; contradiction]. destruct o1 as [x1|]; [|inversion G1; subst; contradiction].
  rewrite (evals_proof_at _ _ _ _ _ _ G0), (evals_proof_at _ _ _ _ _ _ G1), (proj2 (evals_at _ _ _ _ _ _ G0)), (proj2 (evals_at _ _ _ _ _ _ G1)).
  split; [exact D|]. apply G; reflexivity.
Qed.
Lemma z_comp q j : q <> [] -> length q <= n -> j <= len ->
  fadd (nth j (word_at E (z_key false) len q) (of_Z 0)) (nth j (word_at E (z_key true) len q) (of_Z 0)) = nth j (z_value q) (of_Z 0).
Proof. intros Hne Hq Hj. destruct (z_at q Hne Hq) as (_ & L0 & _ & <-). symmetry. apply vec_add_get. lia. Qed.
End Keys.
