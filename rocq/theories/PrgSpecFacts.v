(** The model of the PRG meets SpecPrg.v. *)
From Verif Require Import Base BaseFacts Field Util Env Prg SpecPrg PrgFacts RefEnv.

Lemma le_bytes_mod n : forall x, le_bytes n (x mod 256 ^ N.of_nat n) = le_bytes n x.
Proof.
  induction n as [|n IH]; intros x; [reflexivity|].
  rewrite !le_bytes_S. rewrite Nat2N.inj_succ, N.pow_succ_r'.
  assert (H : (256 ^ N.of_nat n <> 0)%N) by (apply N.pow_nonzero; discriminate).
  rewrite N.mod_mul_r by (try discriminate; exact H).
  f_equal.
  - rewrite N.mul_comm, N.mod_add, N.mod_mod by discriminate. reflexivity.
  - rewrite N.mul_comm, N.div_add by discriminate.
    rewrite (N.div_small (x mod 256)) by (apply N.mod_lt; discriminate). rewrite N.add_0_l. apply IH.
Qed.
Lemma le_bytes_mod64 x : le_bytes 8 (x mod 2 ^ 64) = le_bytes 8 x.
Proof. exact (le_bytes_mod 8 x). Qed.
Lemma le_num_bytes_mod64 x : le_num (le_bytes 8 (x mod 2 ^ 64)) = (x mod 2 ^ 64)%N.
Proof. apply le_num_bytes. apply (N.mod_lt x (2 ^ 64)). discriminate. Qed.

Lemma add_carry_spec l : forall b,
  Forall (fun x => (x < 256)%N) l ->
  add_carry b l = le_bytes (length l) (le_num l + (if b then 1 else 0))%N.
Proof.
  induction l as [|x l IH]; intros b H; [reflexivity|].
  inversion H as [|? ? Hx Hl]; subst. cbn [add_carry length le_num]. rewrite le_bytes_S.
  set (c := (if b then 1 else 0)%N). assert (Hc : (c <= 1)%N) by (unfold c; destruct b; lia).
  replace (x + 256 * le_num l + c)%N with (x + c + le_num l * 256)%N by lia.
  rewrite N.mod_add, N.div_add by discriminate. f_equal.
  rewrite IH by exact Hl. f_equal.
  destruct (256 <=? x + c)%N eqn:Hle.
  - apply N.leb_le in Hle. assert (x + c = 256)%N as -> by lia. change (256 / 256)%N with 1%N. lia.
  - apply N.leb_gt in Hle. rewrite N.div_small by exact Hle. lia.
Qed.

Lemma le_bytes_range n : forall x, Forall (fun x => (x < 256)%N) (le_bytes n x).
Proof. induction n as [|n IH]; intros x; [constructor|]. rewrite le_bytes_S. constructor; [apply N.mod_lt; discriminate|apply IH]. Qed.

Lemma firstn_app_exact {A} (a b : list A) n : length a = n -> firstn n (a ++ b) = a.
Proof. intros <-. rewrite firstn_app, Nat.sub_diag, firstn_O, app_nil_r. apply firstn_all. Qed.
Lemma skipn_app_exact {A} (a b : list A) n : length a = n -> skipn n (a ++ b) = b.
Proof. intros <-. rewrite skipn_app, Nat.sub_diag, skipn_all. reflexivity. Qed.

Lemma firstn8_len (k : bytes) : length k = 16 -> length (firstn 8 k) = 8.
Proof. intros H. rewrite firstn_length. lia. Qed.
Lemma skipn8_len (k : bytes) : length k = 16 -> length (skipn 8 k) = 8.
Proof. intros H. rewrite skipn_length. lia. Qed.
Lemma Forall_firstn {A} (Q : A -> Prop) n l : Forall Q l -> Forall Q (firstn n l).
Proof. revert n. induction l; intros [|n] H; cbn; auto. inversion H; constructor; auto. Qed.
Lemma Forall_skipn {A} (Q : A -> Prop) n l : Forall Q l -> Forall Q (skipn n l).
Proof. revert n. induction l; intros [|n] H; cbn; auto. inversion H; auto. Qed.

Lemma ctr_iter_spec E k i : is_key k -> ctr_iter E i k = counter_block E k i.
Proof.
  intros [Hl Hb]. pose proof (firstn8_len k Hl) as H1. pose proof (skipn8_len k Hl) as H2.
  induction i as [|i IH].
  - cbn [ctr_iter]. unfold counter_block. cbn [N.of_nat]. rewrite !N.add_0_r, !le_bytes_mod64.
    destruct (x86 E).
    + rewrite <- H2 at 2. rewrite le_bytes_num by (apply Forall_skipn, Hb). symmetry. apply firstn_skipn.
    + rewrite <- H1 at 1. rewrite le_bytes_num by (apply Forall_firstn, Hb). symmetry. apply firstn_skipn.
  - cbn [ctr_iter]. rewrite IH. unfold counter_block, inc_be. destruct (x86 E).
    + unfold inc_x86. rewrite firstn_app_exact, skipn_app_exact by exact H1.
      rewrite le_num_bytes_mod64. f_equal. f_equal.
      rewrite N.add_mod_idemp_l by discriminate. f_equal. lia.
    + unfold inc_portable. rewrite firstn_app_exact, skipn_app_exact by apply le_bytes_length.
      rewrite add_carry_spec by apply le_bytes_range. rewrite le_bytes_length, le_num_bytes_mod64.
      rewrite <- le_bytes_mod64. f_equal. f_equal.
      rewrite N.add_mod_idemp_l by discriminate. f_equal. lia.
Qed.

Lemma counter_block_length E k i : is_key k -> length (counter_block E k i) = 16.
Proof. intros H. rewrite <- ctr_iter_spec by exact H. apply ctr_iter_length, H. Qed.

Lemma xor_in_place_combine a : forall b, length a = length b ->
  xor_in_place a b = map (fun ab => N.lxor (fst ab) (snd ab)) (combine a b).
Proof. induction a as [|x a IH]; intros [|y b] H; cbn in *; try lia; [reflexivity|]. rewrite IH by lia. reflexivity. Qed.

Lemma ks_block_spec E k i : env_ok E -> is_key k -> ks_block E k i = stream_block E k i.
Proof.
  intros Hok Hk. unfold ks_block, stream_block. rewrite ctr_iter_spec by exact Hk.
  apply xor_in_place_combine. rewrite aes_len; [symmetry|exact Hok|]; apply counter_block_length, Hk.
Qed.
Lemma ks_spec E k pos : env_ok E -> is_key k -> ks E k pos = stream_byte E k pos.
Proof. intros Hok Hk. unfold ks, stream_byte. rewrite ks_block_spec by assumption. reflexivity. Qed.
Lemma ks_bytes_spec E k a n : env_ok E -> is_key k -> map (ks E k) (seq a n) = stream_bytes E k a n.
Proof. intros Hok Hk. unfold stream_bytes. apply map_ext. intros. apply ks_spec; assumption. Qed.
Lemma stream_block_bytes E k i : env_ok E -> is_key k -> stream_block E k i = stream_bytes E k (16 * i) 16.
Proof.
  intros Hok Hk. rewrite <- ks_block_spec, <- ks_bytes_spec by assumption. apply ks_block_bytes; [exact Hok|apply Hk].
Qed.

Lemma lxor_byte a b : (a < 256)%N -> (b < 256)%N -> (N.lxor a b < 256)%N.
Proof.
  intros Ha Hb. destruct (N.eq_dec (N.lxor a b) 0) as [->|Hn]; [reflexivity|].
  change 256%N with (2 ^ 8)%N in *. apply N.log2_lt_pow2; [lia|].
  eapply N.le_lt_trans; [apply N.log2_lxor|].
  apply N.max_lub_lt.
  - destruct (N.eq_dec a 0) as [->|]; [reflexivity|]. apply N.log2_lt_pow2; lia.
  - destruct (N.eq_dec b 0) as [->|]; [reflexivity|]. apply N.log2_lt_pow2; lia.
Qed.

Lemma counter_block_range E k i : is_key k -> is_bytes (counter_block E k i).
Proof.
  intros [_ Hb]. unfold counter_block, is_bytes. destruct (x86 E); apply Forall_app; split;
    try apply le_bytes_range; [apply Forall_firstn|apply Forall_skipn]; exact Hb.
Qed.

Lemma stream_byte_range E k pos : env_ok E -> is_key k -> (stream_byte E k pos < 256)%N.
Proof.
  intros Hok Hk. unfold stream_byte.
  assert (H : Forall (fun x => (x < 256)%N) (stream_block E k (pos / 16))).
  { unfold stream_block. apply Forall_forall. intros x Hx. apply in_map_iff in Hx. destruct Hx as ([a b] & <- & Hin).
    cbn [fst snd]. apply lxor_byte.
    - apply in_combine_l in Hin. destruct Hok as (_ & _ & _ & _ & Ha & _).
      specialize (Ha (counter_block E k (pos / 16))). rewrite Forall_forall in Ha. apply Ha, Hin.
    - apply in_combine_r in Hin. pose proof (counter_block_range E k (pos / 16) Hk) as Hr.
      unfold is_bytes in Hr. rewrite Forall_forall in Hr. apply Hr, Hin. }
  destruct (nth_in_or_default (pos mod 16) (stream_block E k (pos / 16)) 0%N) as [Hin| ->]; [|reflexivity].
  rewrite Forall_forall in H. apply H, Hin.
Qed.
Lemma stream_bytes_range E k a n : env_ok E -> is_key k -> is_bytes (stream_bytes E k a n).
Proof.
  intros Hok Hk. apply Forall_forall. intros x Hx. apply in_map_iff in Hx. destruct Hx as (i & <- & _).
  apply stream_byte_range; assumption.
Qed.

Lemma le_num_range b : is_bytes b -> (le_num b < 256 ^ N.of_nat (length b))%N.
Proof.
  induction 1 as [|x b Hx Hb IH]; [reflexivity|].
  cbn [le_num length]. rewrite Nat2N.inj_succ, N.pow_succ_r'. cbv beta in Hx.
  generalize dependent (256 ^ N.of_nat (length b))%N. intros. lia.
Qed.
Lemma le_num_app a b : le_num (a ++ b) = (le_num a + 256 ^ N.of_nat (length a) * le_num b)%N.
Proof.
  induction a as [|x a IH]; cbn [le_num app length]; [change (256 ^ N.of_nat 0)%N with 1%N; lia|].
  rewrite IH, Nat2N.inj_succ, N.pow_succ_r'. ring.
Qed.

Lemma ks_field_spec E k pos : env_ok E -> is_key k -> ks_field E k pos = field_of_bytes (stream_bytes E k pos 16).
Proof.
  intros Hok Hk. unfold ks_field, field_of_bytes. rewrite !ks_bytes_spec by assumption. f_equal.
  assert (H : stream_bytes E k pos 16 = stream_bytes E k pos 8 ++ stream_bytes E k (pos + 8) 8).
  { unfold stream_bytes. rewrite <- map_app, <- seq_app. reflexivity. }
  rewrite H, le_num_app.
  pose proof (le_num_range _ (stream_bytes_range E k pos 8 Hok Hk)) as Hr.
  assert (Hlen : length (stream_bytes E k pos 8) = 8) by (unfold stream_bytes; rewrite map_length; apply seq_length).
  rewrite Hlen in *. generalize dependent (le_num (stream_bytes E k pos 8)). intros lo Hlo.
  generalize (le_num (stream_bytes E k (pos + 8) 8)). intros hi.
  change (256 ^ N.of_nat 8)%N with (2 ^ 64)%N in *.
  rewrite <- N.lxor_lor.
  - rewrite <- N.add_nocarry_lxor.
    + rewrite N.shiftl_mul_pow2. lia.
    + apply N.bits_inj. intros n. rewrite N.land_spec, N.bits_0.
      destruct (N.lt_ge_cases n 64).
      * rewrite N.shiftl_spec_low by assumption. reflexivity.
      * rewrite (proj2 (N.testbit_false lo n)); [apply andb_false_r|].
        rewrite N.div_small; [reflexivity|]. eapply N.lt_le_trans; [exact Hlo|]. apply N.pow_le_mono_r; [discriminate|assumption].
  - apply N.bits_inj. intros n. rewrite N.land_spec, N.bits_0.
      destruct (N.lt_ge_cases n 64).
      * rewrite N.shiftl_spec_low by assumption. reflexivity.
      * rewrite (proj2 (N.testbit_false lo n)); [apply andb_false_r|].
        rewrite N.div_small; [reflexivity|]. eapply N.lt_le_trans; [exact Hlo|]. apply N.pow_le_mono_r; [discriminate|assumption].
Qed.

Lemma is_key_mask k : is_key k -> is_key (mask_key k).
Proof.
  intros [Hl Hb]. split; [rewrite mask_key_length; exact Hl|]. destruct k as [|b k]; [constructor|].
  inversion Hb; subst. constructor; [|assumption].
  change 256%N with (2 ^ 8)%N in *.
  destruct (N.eq_dec (N.land b 252) 0) as [->|Hn]; [reflexivity|].
  apply N.log2_lt_pow2; [lia|]. eapply N.le_lt_trans; [apply N.log2_land|].
  eapply N.le_lt_trans; [apply N.le_min_r|]. reflexivity.
Qed.

(** *** a sequence of reads *)
Lemma reads_spec E k ns : forall s pos, env_ok E -> is_key k -> sinv E k pos s ->
  (dbg E = true -> Forall (fun n => n <= 64) ns /\ have s = 16) ->
  exists s' out, reads E s ns = Ret (s', out) /\ concat out = stream_bytes E k pos (list_sum ns) /\
    map (@length N) out = ns /\ sinv E k (pos + list_sum ns) s' /\ (dbg E = true -> have s' = 16).
Proof.
  induction ns as [|n ns IH]; intros s pos Hok Hk Hs Hd; cbn [reads].
  - exists s, []. cbn. rewrite Nat.add_0_r. split; [reflexivity|]. split; [reflexivity|]. split; [reflexivity|]. split; [exact Hs|apply Hd].
  - destruct (fill_bytes_spec E Hok k n s pos (proj1 Hk) Hs) as (s1 & -> & Hs1 & Hh1).
    { intros D. destruct (Hd D) as [Hf Hh]. inversion Hf; auto. }
    cbn [bind].
    destruct (IH s1 (pos + n) Hok Hk Hs1) as (s2 & out & -> & Hc & Hl & Hs2 & Hh2).
    { intros D. destruct (Hd D) as [Hf Hh]. inversion Hf; subst. auto. }
    cbn [bind]. eexists _, _. split; [reflexivity|].
    cbn [concat map list_sum fold_right]. rewrite ks_bytes_spec by assumption. change (fold_right Nat.add 0 ns) with (list_sum ns).
    rewrite Hc, Hl. split; [|split; [|split]].
    + unfold stream_bytes. rewrite <- map_app, <- seq_app. reflexivity.
    + unfold stream_bytes. rewrite map_length, seq_length. reflexivity.
    + rewrite Nat.add_assoc. exact Hs2.
    + exact Hh2.
Qed.

Lemma stream_sinv E s k : length (buf s) = 128 -> sinv E k 0 (set_key s k).
Proof. apply set_key_sinv. Qed.

Lemma C08_release_lemma E k s ns : env_ok E -> is_key k -> length (buf s) = 128 -> dbg E = false ->
  exists s' out, reads E (set_key s k) ns = Ret (s', out) /\
    map (@length N) out = ns /\ concat out = stream_bytes E k 0 (list_sum ns).
Proof.
  intros Hok Hk Hb Hd. destruct (reads_spec E k ns _ 0 Hok Hk (stream_sinv E s k Hb)) as (s' & out & H & Hc & Hl & _).
  - congruence.
  - eauto.
Qed.
Lemma C08_small_lemma E k s ns : env_ok E -> is_key k -> length (buf s) = 128 -> Forall (fun n => n <= 64) ns ->
  exists s' out, reads E (set_key s k) ns = Ret (s', out) /\
    map (@length N) out = ns /\ concat out = stream_bytes E k 0 (list_sum ns).
Proof.
  intros Hok Hk Hb Hf. destruct (reads_spec E k ns _ 0 Hok Hk (stream_sinv E s k Hb)) as (s' & out & H & Hc & Hl & _).
  - intros _. split; [exact Hf|reflexivity].
  - eauto.
Qed.

Lemma fill_loop_drain E n q : forall fuel s dp dest, 64 < n -> buf_ptr s = have s -> n - dp = 128 * S q -> S q <= fuel ->
  exists s' dest', fill_loop (S fuel) E s n dp dest = Ret (s', dest') /\ have s' = 128 /\ buf_ptr s' = 128.
Proof.
  induction q as [|q IH]; intros fuel s dp dest Hn Hp Hr Hf; rewrite fill_loop_S.
  - rewrite (proj2 (Nat.ltb_lt dp n)) by lia. rewrite (proj2 (Nat.eqb_eq _ _) Hp).
    change (4 * AES_BLOCK_SIZE) with 64. rewrite (proj2 (Nat.ltb_lt 64 n)) by lia.
    unfold bind. cbv zeta. change (have (refill8 E s)) with 128. change (buf_ptr (refill8 E s)) with 0.
    rewrite Nat.sub_0_r, Hr. replace (Nat.min 128 (128 * 1)) with 128 by reflexivity.
    destruct fuel as [|fuel]; [lia|]. rewrite fill_loop_S. rewrite (proj2 (Nat.ltb_ge (dp + 128) n)) by lia.
    eexists _, _. split; [reflexivity|]. split; reflexivity.
  - rewrite (proj2 (Nat.ltb_lt dp n)) by lia. rewrite (proj2 (Nat.eqb_eq _ _) Hp).
    change (4 * AES_BLOCK_SIZE) with 64. rewrite (proj2 (Nat.ltb_lt 64 n)) by lia.
    unfold bind. cbv zeta. change (have (refill8 E s)) with 128. change (buf_ptr (refill8 E s)) with 0.
    rewrite Nat.sub_0_r, Nat.min_l by lia.
    destruct fuel as [|fuel]; [lia|]. apply IH; [assumption|reflexivity|lia|lia].
Qed.

Lemma C08_panic_lemma E k s n m : dbg E = true -> 64 < n -> n mod 128 = 0 -> 0 < m <= 64 ->
  reads E (set_key s k) [n; m] = Panic PDebugAssert.
Proof.
  intros Hd Hn Hmod Hm. cbn [reads].
  apply Nat.mod_divides in Hmod; [|lia]. destruct Hmod as [q Hq]. destruct q as [|q]; [lia|].
  unfold fill_bytes at 1.
  destruct (fill_loop_drain E n q (n - 1) (set_key s k) 0 []) as (s' & d' & H & Hh & Hp); try lia.
  { reflexivity. }
  replace (S (n - 1)) with n in H by lia. rewrite H. cbn [bind]. unfold fill_bytes.
  destruct m as [|m]; [lia|]. rewrite fill_loop_S. change (0 <? S m) with true. cbv iota.
  rewrite Hh, Hp. change (128 =? 128) with true. cbv iota. change (4 * AES_BLOCK_SIZE) with 64.
  rewrite (proj2 (Nat.ltb_ge 64 (S m))) by lia. unfold refill. rewrite Hp, Hd. reflexivity.
Qed.

(** *** C06, C07 *)
Lemma expand_dir_on_stream E s key l r : env_ok E -> is_key key -> length (buf s) = 128 ->
  exists s', expand_dir_on E s key l r =
    Ret (s', {| po_bits := (true, true);
                po_seeds := (if l then stream_bytes E (mask_key key) 0 16 else repeat 0%N 16,
                             if r then stream_bytes E (mask_key key) 16 16 else repeat 0%N 16) |})
    /\ length (buf s') = 128.
Proof.
  intros Hok Hk Hb. destruct (expand_dir_on_spec E Hok s key l r (proj1 Hk) Hb) as (s' & -> & Hb').
  exists s'. split; [|exact Hb']. rewrite !ks_block_spec, !stream_block_bytes by (try assumption; apply is_key_mask, Hk).
  reflexivity.
Qed.
Lemma convert_on_stream E s key len : env_ok E -> is_key key -> length (buf s) = 128 ->
  exists s', convert_on E s key len =
    Ret (s', (stream_bytes E key 0 16,
              map (fun i => field_of_bytes (stream_bytes E key (16 + 16 * i) 16)) (seq 0 (len + 1))))
    /\ length (buf s') = 128.
Proof.
  intros Hok Hk Hb. destruct (convert_on_spec E Hok s key len (proj1 Hk) Hb) as (s' & -> & Hb').
  exists s'. split; [|exact Hb']. rewrite ks_block_spec, stream_block_bytes by assumption.
  f_equal. f_equal. f_equal. apply map_ext. intros. apply ks_field_spec; assumption.
Qed.

Lemma C07_lemma E key d : env_ok E -> is_key key ->
  exists one full, expand_dir E key (negb d) d = Ret one /\ expand E key = Ret full /\
    (if d then snd (po_seeds one) = snd (po_seeds full) /\ snd (po_bits one) = snd (po_bits full)
     else fst (po_seeds one) = fst (po_seeds full) /\ fst (po_bits one) = fst (po_bits full)).
Proof.
  intros Hok Hk. unfold expand. rewrite !(expand_dir_spec E Hok) by apply Hk. eexists _, _.
  split; [reflexivity|]. split; [reflexivity|]. destruct d; split; reflexivity.
Qed.

(** *** C14 *)
Lemma C14_from_rng_lemma E k s pre post : env_ok E -> is_key k -> length (buf s) = 128 ->
  Forall (fun n => n <= 64) pre -> Forall (fun n => n <= 64) post ->
  exists s1 o1 s2 x s3 o3,
    reads E (set_key s k) pre = Ret (s1, o1) /\ from_rng E s1 = Ret (s2, x) /\ reads E s2 post = Ret (s3, o3) /\
    fval x = (Z.of_N (le_num (stream_bytes E k (list_sum pre) 16)) mod P)%Z /\
    map (@length N) o3 = post /\ concat o3 = stream_bytes E k (list_sum pre + 16) (list_sum post).
Proof.
  intros Hok Hk Hb Hpre Hpost.
  destruct (reads_spec E k pre _ 0 Hok Hk (stream_sinv E s k Hb)) as (s1 & o1 & H1 & _ & _ & Hs1 & Hh1).
  { intros _. split; [exact Hpre|reflexivity]. }
  destruct (from_rng_spec E Hok k _ s1 (proj1 Hk) Hs1 Hh1) as (s2 & H2 & Hs2 & Hh2).
  destruct (reads_spec E k post s2 _ Hok Hk Hs2) as (s3 & o3 & H3 & Hc & Hl & _).
  { intros D. split; [exact Hpost|auto]. }
  exists s1, o1, s2, (ks_field E k (0 + list_sum pre)), s3, o3. repeat split; try assumption.
  rewrite ks_field_spec by assumption. apply fval_of_Z.
Qed.

Lemma P_lt : (P < 2 ^ 128)%Z.  Proof. reflexivity. Qed.
Lemma get_encoded_num a : le_num (get_encoded a) = Z.to_N (fval a).
Proof.
  unfold get_encoded. apply le_num_bytes. pose proof (fval_range a). pose proof P_lt.
  apply N2Z.inj_lt. rewrite Z2N.id by lia. change (Z.of_N (256 ^ N.of_nat 16)) with (2 ^ 128)%Z. lia.
Qed.
Lemma get_encoded_inj a b : get_encoded a = get_encoded b -> a = b.
Proof.
  intros H. apply f_ext. apply (f_equal le_num) in H. rewrite !get_encoded_num in H.
  pose proof (fval_range a). pose proof (fval_range b). lia.
Qed.
Lemma get_encoded_length a : length (get_encoded a) = 16.
Proof. apply le_bytes_length. Qed.
Lemma C14_encoding_lemma a b :
  length (get_encoded a) = 16 /\ le_num (get_encoded a) = Z.to_N (fval a) /\ (get_encoded a = get_encoded b -> a = b).
Proof. split; [apply get_encoded_length|]. split; [apply get_encoded_num|apply get_encoded_inj]. Qed.

(** *** C11 *)
Lemma C11_counter_lemma E E' k i : x86 E = true -> x86 E' = false -> is_key k ->
  0 < i -> (N.of_nat i < 2 ^ 64)%N -> counter_block E k i <> counter_block E' k i.
Proof.
  intros Hx Hx' [Hl Hb] Hi Hi2 H. unfold counter_block in H. rewrite Hx, Hx' in H.
  apply (f_equal (firstn 8)) in H. rewrite !firstn_app_exact in H by (try apply le_bytes_length; apply firstn8_len, Hl).
  apply (f_equal le_num) in H. rewrite le_num_bytes_mod64 in H.
  pose proof (le_num_range _ (Forall_firstn _ 8 k Hb)) as Hr. rewrite firstn8_len in Hr by exact Hl.
  change (256 ^ N.of_nat 8)%N with (2 ^ 64)%N in Hr. set (v := le_num (firstn 8 k)) in *. clearbody v.
  destruct (N.lt_ge_cases (v + N.of_nat i) (2 ^ 64)) as [Hs|Hg].
  - rewrite N.mod_small in H by exact Hs. lia.
  - assert (Hv : ((v + N.of_nat i) mod 2 ^ 64 = v + N.of_nat i - 2 ^ 64)%N).
    { symmetry. apply (N.mod_unique _ _ 1); lia. }
    rewrite Hv in H. lia.
Qed.
Lemma C11_block0_lemma E E' k : aes0 E = aes0 E' -> is_key k -> stream_block E k 0 = stream_block E' k 0.
Proof.
  intros Ha Hk. assert (H : counter_block E k 0 = counter_block E' k 0) by (rewrite <- !ctr_iter_spec by exact Hk; reflexivity).
  unfold stream_block. rewrite Ha, H. reflexivity.
Qed.
