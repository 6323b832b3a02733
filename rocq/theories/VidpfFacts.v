(** Proofs about Vidpf.v: gen and eval_bit on honest key pairs. *)
From Verif Require Import Base BaseFacts Field Util UtilFacts Env Prg PrgFacts Vidpf SpecPrg SpecVidpf.

Lemma vec_add_length a : forall b, length (vec_add a b) = length a.
Proof. induction a as [|x a IH]; intros [|y b]; cbn; auto. Qed.
Lemma vec_sub_length a : forall b, length (vec_sub a b) = length a.
Proof. induction a as [|x a IH]; intros [|y b]; cbn; auto. Qed.
Lemma vec_neg_length a : length (vec_neg a) = length a.
Proof. apply map_length. Qed.
Lemma seed_xor_length a b : length a = 16 -> length b = 16 -> length (seed_xor a b) = 16.
Proof. intros. unfold seed_xor. rewrite xor_vec_length. lia. Qed.

(** shares_of as an equation between model vectors *)
Lemma shares_of_intro w0 w1 v : length w0 = length w1 -> vec_add w0 w1 = v -> shares_of w0 w1 v.
Proof.
  intros Hl <-. unfold shares_of. rewrite vec_add_length. split; [reflexivity|]. split; [auto|].
  intros i a b Ha Hb. rewrite vec_add_nth, Ha, Hb. reflexivity.
Qed.
Lemma shares_of_elim w0 w1 v : shares_of w0 w1 v -> vec_add w0 w1 = v.
Proof.
  intros (H0 & H1 & H). apply nth_error_ext. intros i. rewrite vec_add_nth.
  destruct (nth_error w0 i) as [a|] eqn:Ha.
  - destruct (nth_error w1 i) as [b|] eqn:Hb.
    + symmetry. apply H; assumption.
    + apply nth_error_None in Hb. assert (i < length w0) by (apply nth_error_Some; congruence). lia.
  - apply nth_error_None in Ha. symmetry. apply nth_error_None. lia.
Qed.

Section WithEnv.
Variable E : env.
Hypothesis Hok : env_ok E.

Definition child (seed : bytes) (d : bool) : bytes := ks_block E (mask_key seed) (if d then 1 else 0).
Definition conv_seed (seed : bytes) : bytes := ks_block E seed 0.
Definition conv_word (seed : bytes) (len : nat) : list fld :=
  map (fun i => ks_field E seed (16 + 16 * i)) (seq 0 (len + 1)).

Lemma child_length seed d : length seed = 16 -> length (child seed d) = 16.
Proof. intros H. apply ks_block_length; [exact Hok|]. rewrite mask_key_length. exact H. Qed.
Lemma conv_seed_length seed : length seed = 16 -> length (conv_seed seed) = 16.
Proof. intros H. apply ks_block_length; [exact Hok|exact H]. Qed.
Lemma conv_word_length seed len : length (conv_word seed len) = len + 1.
Proof. unfold conv_word. rewrite map_length, seq_length. reflexivity. Qed.

Lemma expand_child seed : length seed = 16 ->
  expand E seed = Ret {| po_bits := (true, true); po_seeds := (child seed false, child seed true) |}.
Proof. intros H. unfold expand. rewrite (expand_dir_spec E Hok) by exact H. reflexivity. Qed.
Lemma convert_conv seed len : length seed = 16 -> convert E seed len = Ret (conv_seed seed, conv_word seed len).
Proof. apply (convert_spec E Hok). Qed.

(** one correction step of a party *)
Definition corrected (bit : bool) (seed cwseed : bytes) : bytes := if bit then seed_xor seed cwseed else seed.

(** gen_cor_word in closed form *)
Lemma gen_cor_word_spec bit beta b0 b1 s0 s1 :
  length s0 = 16 -> length s1 = 16 ->
  let cwseed := seed_xor (child s0 (negb bit)) (child s1 (negb bit)) in
  let t0 := corrected b0 (child s0 bit) cwseed in
  let t1 := corrected b1 (child s1 bit) cwseed in
  let w := vec_add (vec_sub (beta ++ [fone]) (conv_word t0 (length beta))) (conv_word t1 (length beta)) in
  gen_cor_word E bit beta (b0, b1) (s0, s1) =
    Ret ({| cw_seed := cwseed; cw_bits := (negb bit, bit);
            cw_word := if negb b1 then vec_neg w else w |},
         (negb b0, negb b1), (conv_seed t0, conv_seed t1)).
Proof.
  intros H0 H1. cbv zeta. unfold gen_cor_word. cbn [fst snd].
  rewrite !expand_child by assumption. cbn [bind po_bits po_seeds fst snd].
  assert (Hc : forall s d, tget (child s false, child s true) d = child s d) by (intros s [|]; reflexivity).
  unfold next_seed_bit. cbn [po_bits po_seeds]. rewrite !Hc.
  set (cwseed := seed_xor (child s0 (negb bit)) (child s1 (negb bit))).
  assert (Hcw : length cwseed = 16) by (apply seed_xor_length; apply child_length; assumption).
  fold (corrected b0 (child s0 bit) cwseed). fold (corrected b1 (child s1 bit) cwseed).
  assert (Hb : forall b : bool, (if b then xorb (tget (true, true) bit) (tget (xorb (xorb (xorb true true) bit) true, xorb (xorb true true) bit) bit)
                          else tget (true, true) bit) = negb b) by (destruct bit; intros [|]; reflexivity).
  rewrite !Hb. replace (xorb (xorb (xorb true true) bit) true) with (negb bit) by (destruct bit; reflexivity).
  replace (xorb (xorb true true) bit) with bit by (destruct bit; reflexivity).
  assert (Ht0 : length (corrected b0 (child s0 bit) cwseed) = 16).
  { unfold corrected. destruct b0; [apply seed_xor_length; [|exact Hcw]|]; apply child_length; assumption. }
  assert (Ht1 : length (corrected b1 (child s1 bit) cwseed) = 16).
  { unfold corrected. destruct b1; [apply seed_xor_length; [|exact Hcw]|]; apply child_length; assumption. }
  rewrite !convert_conv by assumption. reflexivity.
Qed.

Lemma gen_cor_word_lengths bit beta b0 b1 s0 s1 cw bits seeds :
  length s0 = 16 -> length s1 = 16 ->
  gen_cor_word E bit beta (b0, b1) (s0, s1) = Ret (cw, bits, seeds) ->
  length (fst seeds) = 16 /\ length (snd seeds) = 16 /\ length (cw_seed cw) = 16 /\
  length (cw_word cw) = length beta + 1 /\ cw_bits cw = (negb bit, bit) /\ bits = (negb b0, negb b1).
Proof.
  intros H0 H1. rewrite gen_cor_word_spec by assumption. intros [= <- <- <-]. cbn [fst snd cw_seed cw_word cw_bits].
  assert (Hcw : length (seed_xor (child s0 (negb bit)) (child s1 (negb bit))) = 16)
    by (apply seed_xor_length; apply child_length; assumption).
  repeat split.
  - apply conv_seed_length. unfold corrected. destruct b0; [apply seed_xor_length; [|exact Hcw]|]; apply child_length; assumption.
  - apply conv_seed_length. unfold corrected. destruct b1; [apply seed_xor_length; [|exact Hcw]|]; apply child_length; assumption.
  - exact Hcw.
  - destruct (negb b1); rewrite ?vec_neg_length, vec_add_length, vec_sub_length, app_length; reflexivity.
Qed.

Lemma gen_loop_total alpha beta : forall bs bits seeds,
  length (fst seeds) = 16 -> length (snd seeds) = 16 ->
  exists cws css, gen_loop E alpha beta bs bits seeds = Ret (cws, css) /\
    length cws = length alpha /\ length css = length alpha /\
    map cw_bits cws = map (fun a => (negb a, a)) alpha /\
    Forall (fun cw => length (cw_word cw) = length beta + 1 /\ length (cw_seed cw) = 16) cws /\
    Forall (fun c => length c = 16) css.
Proof.
  induction alpha as [|a alpha IH]; intros bs [b0 b1] [s0 s1] H0 H1; cbn [gen_loop].
  - exists [], []. repeat split; constructor.
  - destruct (gen_cor_word E a beta (b0, b1) (s0, s1)) as [[[cw bits] seeds]|p] eqn:Hg.
    2:{ rewrite gen_cor_word_spec in Hg by assumption. discriminate. }
    apply gen_cor_word_lengths in Hg; [|assumption|assumption]. destruct Hg as (Hs0 & Hs1 & Hcs & Hcw & Hb & Hbits).
    cbn [bind]. destruct (IH (bs ++ [bit_char a]) bits seeds Hs0 Hs1) as (cws & css & -> & Hl1 & Hl2 & Hm & Hf & Hg2).
    cbn [bind]. eexists _, _. split; [reflexivity|]. cbn [length map]. rewrite Hl1, Hl2, Hm, Hb.
    repeat split; constructor; auto.
    rewrite firstn_length, xor_vec_length. unfold node_hash. destruct Hok as (_ & Hbl & _). rewrite !Hbl. reflexivity.
Qed.

(** *** eval_bit in closed form *)
Lemma blake_len b : length (blake3 E b) = 32.
Proof. destruct Hok as (_ & H & _). apply H. Qed.
Lemma hash16_len bs s : length (firstn HASH_SIZE (node_hash E bs s)) = 16.
Proof. rewrite firstn_length. unfold node_hash. rewrite blake_len. reflexivity. Qed.

(** proof update of one step, given pi' (already corrected or not) *)
Definition proof_step (pf corr : bytes) : bytes :=
  xor_vec (firstn HASH_SIZE (blake3 E (xor_vec pf corr))) pf.
Lemma proof_step_length pf c : length pf = 16 -> length (proof_step pf c) = 16.
Proof. intros H. unfold proof_step. rewrite xor_vec_length, firstn_length, blake_len. cbn [HASH_SIZE]. unfold HASH_SIZE. lia. Qed.

Lemma xor_three_split a : forall b c, xor_three_vecs a b c = xor_vec a (xor_vec b c).
Proof.
  intros b c. apply nth_error_ext. intros i. rewrite xor_three_nth, !xor_vec_nth.
  destruct (nth_error a i), (nth_error b i), (nth_error c i); try reflexivity. rewrite N.lxor_assoc. reflexivity.
Qed.

Lemma eval_bit_spec k st d bs len cw c :
  length (es_seed st) = 16 ->
  (es_bit st = true \/ xorb true (es_bit st && tget (cw_bits cw) d) = true ->
     nth_error (cor_words k) (es_level st) = Some cw /\ length (cw_seed cw) = 16) ->
  (xorb true (es_bit st && tget (cw_bits cw) d) = true -> nth_error (cs k) (es_level st) = Some c) ->
  let t := corrected (es_bit st) (child (es_seed st) d) (cw_seed cw) in
  let nb := xorb true (es_bit st && tget (cw_bits cw) d) in
  let w := conv_word t len in
  let w := if nb then vec_add w (cw_word cw) else w in
  let pi := firstn HASH_SIZE (node_hash E bs (conv_seed t)) in
  eval_bit E k st d bs len =
    Ret ({| es_level := es_level st + 1; es_seed := conv_seed t; es_bit := nb;
            es_proof := proof_step (es_proof st) (if nb then xor_vec pi c else pi) |},
         if key_idx k then vec_neg w else w).
Proof.
  intros Hs Hcw Hc. cbv zeta. unfold eval_bit. rewrite (expand_dir_spec E Hok) by exact Hs.
  cbn [bind po_bits po_seeds].
  assert (Hch : tget (if negb d then ks_block E (mask_key (es_seed st)) 0 else repeat 0%N 16,
                      if d then ks_block E (mask_key (es_seed st)) 1 else repeat 0%N 16) d = child (es_seed st) d)
    by (destruct d; reflexivity).
  rewrite Hch. replace (tget (true, true) d) with true by (destruct d; reflexivity).
  pose proof (child_length (es_seed st) d Hs) as Hcl.
  destruct (es_bit st) eqn:Hb.
  - destruct (Hcw (or_introl eq_refl)) as [Hn Hl]. rewrite (index_some _ _ _ Hn). cbn [bind andb] in *.
    unfold corrected. rewrite convert_conv by (apply seed_xor_length; assumption). cbn [bind].
    destruct (xorb true (tget (cw_bits cw) d)) eqn:Hnb; cbn [bind negb] in *.
    + rewrite (index_some _ _ _ (Hc eq_refl)). cbn [bind]. unfold proof_step. rewrite xor_three_split. reflexivity.
    + reflexivity.
  - cbn [bind andb xorb negb] in *. unfold corrected. rewrite convert_conv by exact Hcl. cbn [bind].
    destruct (Hcw (or_intror eq_refl)) as [Hn Hl]. rewrite (index_some _ _ _ Hn). cbn [bind].
    rewrite (index_some _ _ _ (Hc eq_refl)). cbn [bind]. unfold proof_step. rewrite xor_three_split. reflexivity.
Qed.

(** *** honest pairs *)
Definition honest_pair (k0 k1 : vidpf_key) (alpha : list bool) (beta : list fld) : Prop :=
  key_idx k0 = false /\ key_idx k1 = true /\ cor_words k1 = cor_words k0 /\ cs k1 = cs k0 /\
  length (root_seed k0) = 16 /\ length (root_seed k1) = 16 /\
  gen_loop E alpha beta [] (false, true) (root_seed k0, root_seed k1) = Ret (cor_words k0, cs k0).

Lemma gen_honest (s0 s1 : bytes) alpha beta k0 k1 : length s0 = 16 -> length s1 = 16 ->
  gen E s0 s1 alpha beta = Ret (k0, k1) -> honest_pair k0 k1 alpha beta.
Proof.
  intros H0 H1 H. unfold gen in H. inv_ret H. destruct a as [cws css]. injection H as <- <-.
  unfold honest_pair; cbn. repeat split; assumption.
Qed.
Lemma gen_total (s0 s1 : bytes) alpha beta : length s0 = 16 -> length s1 = 16 ->
  exists k0 k1, gen E s0 s1 alpha beta = Ret (k0, k1).
Proof.
  intros H0 H1. unfold gen. destruct (gen_loop_total alpha beta [] (false, true) (s0, s1) H0 H1) as (cws & css & -> & _).
  cbn [bind]. eauto.
Qed.

Definition on_path (k : vidpf_key) (alpha : list bool) (beta : list fld) (n : nat) (st0 st1 : eval_state) : Prop :=
  es_bit st1 = negb (es_bit st0) /\
  gen_loop E (skipn n alpha) beta (bits_to_bitstring (firstn n alpha)) (es_bit st0, es_bit st1) (es_seed st0, es_seed st1)
    = Ret (skipn n (cor_words k), skipn n (cs k)).

(** the relation between the states of the two aggregators after evaluating path p *)
Definition vrel (k : vidpf_key) (alpha : list bool) (beta : list fld) (p : list bool) (st0 st1 : eval_state) : Prop :=
  es_level st0 = length p /\ es_level st1 = length p /\ es_proof st0 = es_proof st1 /\ length (es_proof st0) = 16 /\
  length (es_seed st0) = 16 /\ length (es_seed st1) = 16 /\
  if is_prefix p alpha then on_path k alpha beta (length p) st0 st1
  else es_seed st0 = es_seed st1 /\ es_bit st0 = es_bit st1.

Lemma is_prefix_firstn p : forall a, is_prefix p a = true -> p = firstn (length p) a /\ length p <= length a.
Proof.
  induction p as [|x p IH]; intros [|y a]; cbn; intros H; try discriminate; try (split; [reflexivity|lia]).
  apply andb_true_iff in H. destruct H as [Hx Hp]. apply eqb_prop in Hx. subst y.
  destruct (IH a Hp) as [H1 H2]. split; [f_equal; exact H1|lia].
Qed.
Lemma is_prefix_snoc p : forall a d, is_prefix (p ++ [d]) a = is_prefix p a && match nth_error a (length p) with Some b => Bool.eqb d b | None => false end.
Proof.
  induction p as [|x p IH]; intros [|y a] d; cbn; try reflexivity.
  - apply andb_true_r.
  - rewrite IH, andb_assoc. reflexivity.
Qed.
Lemma is_prefix_app p : forall s, is_prefix p (p ++ s) = true.
Proof. induction p as [|x p IH]; intros s; cbn; [reflexivity|]. rewrite eqb_reflx. apply IH. Qed.
Lemma is_prefix_exists p a : is_prefix p a = true <-> exists s, a = p ++ s.
Proof.
  split.
  - revert a. induction p as [|x p IH]; intros a H; [exists a; reflexivity|]. destruct a as [|y a]; [discriminate|].
    cbn in H. apply andb_true_iff in H. destruct H as [Hx Hp]. apply eqb_prop in Hx. subst y.
    destruct (IH a Hp) as [s ->]. exists s. reflexivity.
  - intros [s ->]. apply is_prefix_app.
Qed.

Lemma skipn_cons_nth {A} (l : list A) n a l' : skipn n l = a :: l' -> nth_error l n = Some a /\ skipn (S n) l = l'.
Proof.
  revert l. induction n as [|n IH]; intros [|x l] H; cbn in H; try discriminate.
  - injection H as -> ->. auto.
  - apply IH in H. exact H.
Qed.
Lemma nth_skipn_cons {A} (l : list A) n a : nth_error l n = Some a -> skipn n l = a :: skipn (S n) l.
Proof.
  revert l. induction n as [|n IH]; intros [|x l] H; cbn in H; try discriminate.
  - injection H as ->. reflexivity.
  - cbn [skipn]. rewrite (IH l H). reflexivity.
Qed.
Lemma firstn_S_nth {A} (l : list A) n a : nth_error l n = Some a -> firstn (S n) l = firstn n l ++ [a].
Proof.
  revert l. induction n as [|n IH]; intros [|x l] H; cbn in H; try discriminate.
  - injection H as ->. reflexivity.
  - cbn [firstn app]. f_equal. exact (IH l H).
Qed.

(** vector algebra *)
Lemma fld_word_on b c0 : forall c1, length c0 = length b -> length c1 = length b ->
  let W := vec_add (vec_sub b c0) c1 in
  vec_add (vec_add c0 W) (vec_neg c1) = b /\
  vec_add c0 (vec_neg (vec_add c1 (vec_neg W))) = b.
Proof.
  intros c1 H0 H1. cbv zeta. revert c0 c1 H0 H1.
  induction b as [|x b IH]; intros [|y c0] [|z c1] H0 H1; cbn in H0, H1; try discriminate; [split; reflexivity|].
  destruct (IH c0 c1) as [IHa IHb]; [lia|lia|].
  unfold vec_neg in *. cbn [vec_add vec_sub map]. rewrite IHa, IHb. split; f_equal; ring.
Qed.
Lemma fld_word_off w : vec_add w (vec_neg w) = repeat (of_Z 0) (length w).
Proof.
  unfold vec_neg. induction w as [|x w IH]; [reflexivity|]. cbn [map vec_add length repeat]. rewrite IH. f_equal.
  change (of_Z 0) with fzero. ring.
Qed.

Lemma xor_vec_cancel_l a : forall b, length a <= length b -> xor_vec a (xor_vec a b) = firstn (length a) b.
Proof.
  induction a as [|x a IH]; intros [|y b] H; cbn in *; try lia; try reflexivity.
  rewrite IH by lia. rewrite <- N.lxor_assoc, N.lxor_nilpotent, N.lxor_0_l. reflexivity.
Qed.
Lemma xor_vec_comm a : forall b, xor_vec a b = xor_vec b a.
Proof. induction a as [|x a IH]; intros [|y b]; cbn; try reflexivity. rewrite IH, N.lxor_comm. reflexivity. Qed.
Lemma firstn_xor n a : forall b, firstn n (xor_vec a b) = xor_vec (firstn n a) (firstn n b).
Proof.
  revert a. induction n as [|n IH]; intros [|x a] [|y b]; cbn; try reflexivity. rewrite IH. reflexivity.
Qed.
Lemma seed_fix a b : length a = 16 -> length b = 16 -> seed_xor b (seed_xor a b) = a.
Proof.
  intros Ha Hb. unfold seed_xor. rewrite (xor_vec_comm a b), xor_vec_cancel_l by lia. rewrite Hb, <- Ha. apply firstn_all.
Qed.
Lemma seed_fix' a b : length a = 16 -> length b = 16 -> seed_xor a (seed_xor a b) = b.
Proof.
  intros Ha Hb. unfold seed_xor. rewrite xor_vec_cancel_l by lia. rewrite Ha, <- Hb. apply firstn_all.
Qed.

Lemma bits_snoc p d : bits_to_bitstring (p ++ [d]) = bits_to_bitstring p ++ [bit_char d].
Proof. unfold bits_to_bitstring. apply map_app. Qed.

(** the data of an honest pair along alpha *)
Lemma honest_lengths k0 k1 alpha beta : honest_pair k0 k1 alpha beta ->
  length (cor_words k0) = length alpha /\ length (cs k0) = length alpha /\
  map cw_bits (cor_words k0) = map (fun a => (negb a, a)) alpha /\
  Forall (fun cw => length (cw_word cw) = length beta + 1 /\ length (cw_seed cw) = 16) (cor_words k0) /\
  Forall (fun c => length c = 16) (cs k0).
Proof.
  intros (_ & _ & _ & _ & Hs0 & Hs1 & Hg).
  destruct (gen_loop_total alpha beta [] (false, true) (root_seed k0, root_seed k1) Hs0 Hs1)
    as (cws & css & Hg' & H1 & H2 & H3 & H4 & H5).
  rewrite Hg' in Hg. injection Hg as <- <-. auto.
Qed.

(** one evaluation step of both aggregators *)
Lemma vstep k0 k1 alpha beta p st0 st1 d bs0 bs1 :
  honest_pair k0 k1 alpha beta -> vrel k0 alpha beta p st0 st1 -> length p < length alpha ->
  exists st0' w0 st1' w1,
    eval_bit E k0 st0 d bs0 (length beta) = Ret (st0', w0) /\
    eval_bit E k1 st1 d bs1 (length beta) = Ret (st1', w1) /\
    length w0 = length beta + 1 /\ length w1 = length beta + 1 /\
    vec_add w0 w1 = point_value alpha beta (p ++ [d]) /\
    (bs0 = bits_to_bitstring (p ++ [d]) -> bs1 = bits_to_bitstring (p ++ [d]) ->
     vrel k0 alpha beta (p ++ [d]) st0' st1').
Proof.
  intros Hh Hv Hlt. destruct (honest_lengths _ _ _ _ Hh) as (Hlw & Hlc & Hbits & Hfw & Hfc).
  destruct Hh as (Hi0 & Hi1 & Hcw & Hcs & _ & _ & _).
  destruct Hv as (Hl0 & Hl1 & Hpf & Hpfl & Hs0 & Hs1 & Hcase).
  destruct (nth_error alpha (length p)) as [a|] eqn:Ha; [|apply nth_error_None in Ha; lia].
  destruct (nth_error (cor_words k0) (length p)) as [cw|] eqn:Hw; [|apply nth_error_None in Hw; lia].
  destruct (nth_error (cs k0) (length p)) as [c|] eqn:Hc; [|apply nth_error_None in Hc; lia].
  assert (Hcb : cw_bits cw = (negb a, a)).
  { apply (f_equal (fun l => nth_error l (length p))) in Hbits. rewrite !nth_error_map', Hw, Ha in Hbits. cbn in Hbits. congruence. }
  assert (Hcwl : length (cw_word cw) = length beta + 1 /\ length (cw_seed cw) = 16).
  { rewrite Forall_forall in Hfw. apply Hfw. eapply nth_error_In; exact Hw. }
  destruct Hcwl as [Hcwl Hcsl].
  assert (Hcl : length c = 16) by (rewrite Forall_forall in Hfc; apply Hfc; eapply nth_error_In; exact Hc).
  assert (Htg : tget (cw_bits cw) d = Bool.eqb d a) by (rewrite Hcb; destruct d, a; reflexivity).
  rewrite (eval_bit_spec k0 st0 d bs0 (length beta) cw c) by (rewrite ?Hl0; auto).
  rewrite (eval_bit_spec k1 st1 d bs1 (length beta) cw c) by (rewrite ?Hl1, ?Hcw, ?Hcs; auto).
  rewrite Hi0, Hi1, Htg, Hl0, Hl1.
  set (t0 := corrected (es_bit st0) (child (es_seed st0) d) (cw_seed cw)).
  set (t1 := corrected (es_bit st1) (child (es_seed st1) d) (cw_seed cw)).
  set (nb0 := xorb true (es_bit st0 && Bool.eqb d a)).
  set (nb1 := xorb true (es_bit st1 && Bool.eqb d a)).
  assert (Ht0 : length t0 = 16).
  { unfold t0, corrected. destruct (es_bit st0); [apply seed_xor_length; [|exact Hcsl]|]; apply child_length; assumption. }
  assert (Ht1 : length t1 = 16).
  { unfold t1, corrected. destruct (es_bit st1); [apply seed_xor_length; [|exact Hcsl]|]; apply child_length; assumption. }
  eexists _, _, _, _. split; [reflexivity|]. split; [reflexivity|].
  assert (Hwl : forall t (nb : bool), length (if nb then vec_add (conv_word t (length beta)) (cw_word cw) else conv_word t (length beta)) = length beta + 1).
  { intros t [|]; rewrite ?vec_add_length, conv_word_length; reflexivity. }
  split; [apply Hwl|]. split; [rewrite vec_neg_length; apply Hwl|].
  unfold point_value. rewrite is_prefix_snoc, Ha.
  destruct (is_prefix p alpha) eqn:Hpre; cbn [andb].
  - (* the parent is on the path to alpha *)
    destruct Hcase as [Hneg Hgl].
    rewrite (nth_skipn_cons _ _ _ Ha), (nth_skipn_cons _ _ _ Hw), (nth_skipn_cons _ _ _ Hc) in Hgl.
    cbn [gen_loop] in Hgl. rewrite gen_cor_word_spec in Hgl by assumption. cbn [bind fst snd] in Hgl.
    inv_ret Hgl. destruct a0 as [cws css]. injection Hgl as Hcweq Hcws Hceq Hcss.
    subst cws css.
    destruct (is_prefix_firstn _ _ Hpre) as [Hpf' _].
    destruct (Bool.eqb d a) eqn:Hda.
    + (* staying on the path *)
      apply eqb_prop in Hda. subst d.
      assert (Hcs' : cw_seed cw = seed_xor (child (es_seed st0) (negb a)) (child (es_seed st1) (negb a))) by (rewrite <- Hcweq; reflexivity).
      rewrite <- Hcs' in *. fold t0 t1 in Hcweq, Hceq, H.
      assert (Hn0 : nb0 = negb (es_bit st0)) by (unfold nb0; rewrite andb_true_r; reflexivity).
      assert (Hn1 : nb1 = negb (es_bit st1)) by (unfold nb1; rewrite andb_true_r; reflexivity).
      rewrite Hn0, Hn1, Hneg, negb_involutive in *.
      pose proof (f_equal cw_word Hcweq) as Hww. cbn [cw_word] in Hww.
      destruct (fld_word_on (beta ++ [fone]) (conv_word t0 (length beta)) (conv_word t1 (length beta))) as [HA HB];
        [rewrite conv_word_length, app_length; reflexivity|rewrite conv_word_length, app_length; reflexivity|].
      split.
      * rewrite <- Hww. destruct (es_bit st0); cbn [negb]; assumption.
      * intros -> ->. unfold vrel. cbn [es_level es_seed es_bit es_proof]. rewrite app_length. cbn [length].
        split; [reflexivity|]. split; [reflexivity|].
        assert (Hpieq : forall bs, c = firstn HASH_SIZE (xor_vec (node_hash E bs (conv_seed t0)) (node_hash E bs (conv_seed t1))) ->
           (if negb (es_bit st0) then xor_vec (firstn HASH_SIZE (node_hash E bs (conv_seed t0))) c
            else firstn HASH_SIZE (node_hash E bs (conv_seed t0))) =
           (if es_bit st0 then xor_vec (firstn HASH_SIZE (node_hash E bs (conv_seed t1))) c
            else firstn HASH_SIZE (node_hash E bs (conv_seed t1)))).
        { intros bs ->. rewrite firstn_xor. pose proof (hash16_len bs (conv_seed t0)) as HL0. pose proof (hash16_len bs (conv_seed t1)) as HL1.
          destruct (es_bit st0); cbn [negb].
          - symmetry. exact (seed_fix _ _ HL0 HL1).
          - exact (seed_fix' _ _ HL0 HL1). }
        rewrite (bits_snoc p a).
        assert (Hbs : bits_to_bitstring (firstn (length p) alpha) = bits_to_bitstring p) by (rewrite <- Hpf'; reflexivity).
        split.
        { rewrite Hpf. f_equal. apply Hpieq. rewrite <- Hceq, Hbs. reflexivity. }
        split; [apply proof_step_length, Hpfl|].
        split; [apply conv_seed_length, Ht0|]. split; [apply conv_seed_length, Ht1|].
        rewrite is_prefix_snoc, Hpre, Ha, eqb_reflx. cbn [andb].
        unfold on_path. cbn [es_seed es_bit]. rewrite negb_involutive. split; [reflexivity|].
        replace (length p + 1) with (S (length p)) by lia.
        rewrite (firstn_S_nth _ _ _ Ha), bits_snoc. exact H.
    + (* leaving the path *)
      assert (Hd : d = negb a) by (destruct d, a; try discriminate; reflexivity). subst d.
      assert (Hcs' : cw_seed cw = seed_xor (child (es_seed st0) (negb a)) (child (es_seed st1) (negb a))) by (rewrite <- Hcweq; reflexivity).
      assert (Hteq : t0 = t1).
      { unfold t0, t1. rewrite Hcs', Hneg. pose proof (child_length (es_seed st0) (negb a) Hs0) as L0.
        pose proof (child_length (es_seed st1) (negb a) Hs1) as L1.
        destruct (es_bit st0); cbn [negb corrected]; [apply seed_fix'; assumption|symmetry; apply seed_fix; assumption]. }
      assert (Hn0 : nb0 = true) by (unfold nb0; rewrite andb_false_r; reflexivity).
      assert (Hn1 : nb1 = true) by (unfold nb1; rewrite andb_false_r; reflexivity).
      rewrite Hn0, Hn1, Hteq. split.
      * rewrite fld_word_off, vec_add_length, conv_word_length. reflexivity.
      * intros -> ->. unfold vrel. cbn [es_level es_seed es_bit es_proof]. rewrite app_length. cbn [length].
        rewrite Hpf. split; [reflexivity|]. split; [reflexivity|]. split; [reflexivity|].
        rewrite <- Hpf. split; [apply proof_step_length, Hpfl|].
        split; [apply conv_seed_length, Ht1|]. split; [apply conv_seed_length, Ht1|].
        rewrite is_prefix_snoc, Hpre, Ha. cbn [andb]. rewrite Hda. auto.
  - (* off the path already *)
    destruct Hcase as [Hse Hbe].
    assert (Hteq : t0 = t1) by (unfold t0, t1; rewrite Hse, Hbe; reflexivity).
    assert (Hneq : nb0 = nb1) by (unfold nb0, nb1; rewrite Hbe; reflexivity).
    rewrite Hteq, Hneq. split.
    + rewrite fld_word_off, Hwl. reflexivity.
    + intros -> ->. unfold vrel. cbn [es_level es_seed es_bit es_proof]. rewrite app_length. cbn [length].
      rewrite Hpf. split; [reflexivity|]. split; [reflexivity|]. split; [reflexivity|].
      rewrite <- Hpf. split; [apply proof_step_length, Hpfl|].
      split; [apply conv_seed_length, Ht1|]. split; [apply conv_seed_length, Ht1|].
      rewrite is_prefix_snoc, Hpre. cbn [andb]. auto.
Qed.

Lemma vrel_init k0 k1 alpha beta pi : honest_pair k0 k1 alpha beta -> length pi = 16 ->
  vrel k0 alpha beta []
    {| es_level := 0; es_seed := root_seed k0; es_bit := key_idx k0; es_proof := pi |}
    {| es_level := 0; es_seed := root_seed k1; es_bit := key_idx k1; es_proof := pi |}.
Proof.
  intros (Hi0 & Hi1 & _ & _ & Hs0 & Hs1 & Hg) Hpi. unfold vrel, on_path. cbn [es_level es_seed es_bit es_proof length is_prefix skipn firstn].
  rewrite Hi0, Hi1. repeat split; assumption.
Qed.
End WithEnv.
