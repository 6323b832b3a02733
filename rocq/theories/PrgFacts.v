(** Proofs about Prg.v. *)
From Verif Require Import Base BaseFacts Field Util Env Prg SpecPrg.

Definition ks_block (E : env) (key : bytes) (i : nat) : bytes :=
  xor_in_place (aes0 E (ctr_iter E i key)) (ctr_iter E i key).
Definition ks (E : env) (key : bytes) (pos : nat) : N := nth (pos mod 16) (ks_block E key (pos / 16)) 0%N.

Lemma xor_in_place_length a b : length (xor_in_place a b) = length a.
Proof. revert b. induction a as [|x a IH]; intros [|y b]; cbn; auto. Qed.

Lemma inc_be_length E c : length c = 16 -> length (inc_be E c) = 16.
Proof.
  intros H. unfold inc_be, inc_x86, inc_portable. destruct (x86 E).
  - rewrite app_length, firstn_length, le_bytes_length. lia.
  - assert (Ha : forall l b, length (add_carry b l) = length l) by (induction l; intros; cbn; auto).
    rewrite app_length, Ha, firstn_length, skipn_length. lia.
Qed.
Lemma ctr_iter_length E n c : length c = 16 -> length (ctr_iter E n c) = 16.
Proof. intros H. induction n; cbn; [assumption|]. apply inc_be_length. assumption. Qed.
Lemma ctr_iter_add E n m c : ctr_iter E n (ctr_iter E m c) = ctr_iter E (n + m) c.
Proof. induction n; cbn; [reflexivity|]. f_equal. assumption. Qed.

Section WithEnv.
Variable E : env.
Hypothesis Hok : env_ok E.

Lemma aes_len b : length b = 16 -> length (aes0 E b) = 16.
Proof. destruct Hok as (H & _). apply H. Qed.
Lemma ks_block_length k i : length k = 16 -> length (ks_block E k i) = 16.
Proof. intros H. unfold ks_block. rewrite xor_in_place_length. apply aes_len, ctr_iter_length, H. Qed.

Lemma ks_block_bytes k i : length k = 16 -> ks_block E k i = map (ks E k) (seq (16 * i) 16).
Proof.
  intros Hk. apply (nth_ext _ _ 0%N 0%N).
  - rewrite map_length, seq_length. apply ks_block_length, Hk.
  - intros j Hj. rewrite ks_block_length in Hj by exact Hk.
    rewrite (nth_indep (map _ _) 0%N (ks E k 0)) by (rewrite map_length, seq_length; exact Hj).
    rewrite map_nth, seq_nth by exact Hj. unfold ks.
    replace ((16 * i + j) mod 16) with j.
    + replace ((16 * i + j) / 16) with i; [apply nth_indep; rewrite ks_block_length; assumption|].
      symmetry. rewrite Nat.mul_comm, Nat.div_add_l by lia. rewrite Nat.div_small; lia.
    + symmetry. rewrite Nat.mul_comm, Nat.add_comm, Nat.mod_add by lia. apply Nat.mod_small. exact Hj.
Qed.

(** [s] is positioned at byte [pos] of the key stream of [k] *)
Definition sinv (k : bytes) (pos : nat) (s : stream) : Prop :=
  length (buf s) = 128 /\ (have s = 16 \/ have s = 128) /\ buf_ptr s <= have s /\
  exists c, ctr s = ctr_iter E c k /\ pos + (have s - buf_ptr s) = 16 * c /\
            slice (buf_ptr s) (have s) (buf s) = map (ks E k) (seq pos (have s - buf_ptr s)).

Lemma set_key_sinv s k : length (buf s) = 128 -> sinv k 0 (set_key s k).
Proof.
  intros H. unfold sinv, set_key, AES_BLOCK_SIZE; cbn [ctr buf have buf_ptr].
  repeat split; auto. exists 0. repeat split.
Qed.

Lemma xor_in_place_app a b c d :
  length a = length b -> xor_in_place (a ++ c) (b ++ d) = xor_in_place a b ++ xor_in_place c d.
Proof. revert b. induction a as [|x a IH]; intros [|y b] H; cbn in *; try lia; [reflexivity|]. rewrite IH; auto. Qed.

Lemma refill_sinv k pos s :
  length k = 16 -> sinv k pos s -> buf_ptr s = have s -> (dbg E = true -> have s = 16) ->
  exists s', refill E s = Ret s' /\ sinv k pos s' /\ have s' = 16 /\ buf_ptr s' = 0.
Proof.
  intros Hk (Hb & _ & _ & c & Hc & Hpos & _) Hptr Hdbg. unfold refill.
  assert (Hd : debug_assert (dbg E) (buf_ptr s =? AES_BLOCK_SIZE) = Ret tt).
  { destruct (dbg E) eqn:D; [|reflexivity]. rewrite Hptr, (Hdbg eq_refl). reflexivity. }
  rewrite Hd. cbn [bind]. eexists. split; [reflexivity|].
  unfold AES_BLOCK_SIZE in *. cbn [have buf_ptr].
  assert (Hlc : length (ctr s) = 16) by (rewrite Hc; apply ctr_iter_length, Hk).
  assert (Hf : firstn 16 (ctr s ++ skipn 16 (buf s)) = ctr s).
  { rewrite firstn_app, Hlc, Nat.sub_diag, firstn_O, app_nil_r. rewrite <- Hlc. apply firstn_all. }
  assert (Hs : skipn 16 (ctr s ++ skipn 16 (buf s)) = skipn 16 (buf s)).
  { rewrite skipn_app, Hlc, Nat.sub_diag. rewrite <- Hlc at 1. rewrite skipn_all. reflexivity. }
  rewrite Hf, Hs, xor_in_place_app by (rewrite aes_len; congruence).
  split; [|split; reflexivity].
  unfold sinv; cbn [ctr buf have buf_ptr]. split.
  { rewrite app_length, !xor_in_place_length, aes_len, skipn_length by exact Hlc. lia. }
  split; [left; reflexivity|]. split; [lia|].
  exists (S c). split; [cbn; congruence|]. split; [lia|].
  replace (16 - 0) with 16 by reflexivity. unfold slice.
  replace (16 - 0) with 16 by reflexivity. cbn [skipn].
  rewrite firstn_app, xor_in_place_length, aes_len, Nat.sub_diag, firstn_O, app_nil_r by exact Hlc.
  rewrite firstn_all2 by (rewrite xor_in_place_length, aes_len by exact Hlc; reflexivity).
  rewrite Hc. change (xor_in_place _ _) with (ks_block E k c). rewrite ks_block_bytes by exact Hk.
  f_equal. f_equal. lia.
Qed.

Lemma concat_blocks k c n : length k = 16 ->
  concat (map (fun i => ks_block E k (c + i)) (seq 0 n)) = map (ks E k) (seq (16 * c) (16 * n)).
Proof.
  intros Hk. induction n as [|n IH].
  - reflexivity.
  - rewrite seq_S, map_app, concat_app, IH. cbn [map concat]. rewrite app_nil_r, ks_block_bytes by exact Hk.
    rewrite <- map_app. f_equal. replace (16 * S n) with (16 * n + 16) by lia. rewrite seq_app. f_equal. f_equal. lia.
Qed.

Lemma refill8_sinv k pos s :
  length k = 16 -> sinv k pos s -> buf_ptr s = have s ->
  sinv k pos (refill8 E s) /\ have (refill8 E s) = 128 /\ buf_ptr (refill8 E s) = 0.
Proof.
  intros Hk (Hb & _ & _ & c & Hc & Hpos & _) Hptr.
  assert (Hbuf : buf (refill8 E s) = map (ks E k) (seq (16 * c) 128)).
  { change 128 with (16 * 8). rewrite <- concat_blocks by exact Hk. unfold refill8; cbn [buf]. f_equal.
    rewrite map_map. apply map_ext. intros i. unfold ks_block. rewrite Hc, ctr_iter_add, (Nat.add_comm i c). reflexivity. }
  split; [|split; reflexivity]. unfold sinv. rewrite Hbuf.
  change (have (refill8 E s)) with 128. change (buf_ptr (refill8 E s)) with 0.
  split; [rewrite map_length, seq_length; reflexivity|]. split; [right; reflexivity|]. split; [lia|].
  exists (8 + c). split; [unfold refill8; cbn [ctr]; rewrite Hc; apply ctr_iter_add|]. split; [lia|].
  unfold slice. change (128 - 0) with 128. cbn [skipn].
  rewrite firstn_all2 by (rewrite map_length, seq_length; lia). f_equal. f_equal. lia.
Qed.

Lemma slice_app_split {A} (l : list A) a b c : a <= b -> b <= c ->
  slice a c l = slice a b l ++ slice b c l.
Proof.
  intros H1 H2. unfold slice. replace (c - a) with ((b - a) + (c - b)) by lia.
  rewrite <- (firstn_skipn (b - a) (firstn (b - a + (c - b)) (skipn a l))).
  rewrite firstn_firstn, Nat.min_l by lia. f_equal.
  rewrite skipn_firstn_comm, skipn_skipn'. f_equal; [lia|]. f_equal. lia.
Qed.

Lemma fill_loop_spec k n : forall fuel s pos dp dest,
  length k = 16 -> sinv k pos s -> (dbg E = true -> n <= 64 /\ have s = 16) ->
  dp <= n -> n - dp <= fuel ->
  exists s', fill_loop fuel E s n dp dest = Ret (s', dest ++ map (ks E k) (seq pos (n - dp))) /\
             sinv k (pos + (n - dp)) s' /\ (n <= 64 -> have s = 16 -> have s' = 16).
Proof.
  induction fuel as [|fuel IH]; intros s pos dp dest Hk Hs Hd Hdp Hf; cbn [fill_loop].
  - destruct (dp <? n) eqn:Hlt; [lia|]. exists s. replace (n - dp) with 0 by lia. cbn.
    rewrite app_nil_r, Nat.add_0_r. auto.
  - destruct (dp <? n) eqn:Hlt.
    2:{ exists s. replace (n - dp) with 0 by lia. cbn. rewrite app_nil_r, Nat.add_0_r. auto. }
    assert (exists s1, (if buf_ptr s =? have s
                    then (if 4 * AES_BLOCK_SIZE <? n then Ret (refill8 E s) else refill E s)
                    else Ret s) = Ret s1 /\ sinv k pos s1 /\ buf_ptr s1 < have s1 /\ (n <= 64 -> have s = 16 -> have s1 = 16))
      as (s1 & Hr & Hs1 & Hlt1 & Hhave).
    { destruct (buf_ptr s =? have s) eqn:Hp.
      - apply Nat.eqb_eq in Hp. change (4 * AES_BLOCK_SIZE) with 64. destruct (64 <? n) eqn:H64.
        + exists (refill8 E s). destruct (refill8_sinv k pos s Hk Hs Hp) as (? & ? & ?).
          split; [reflexivity|]. split; [assumption|]. split; [lia|]. lia.
        + destruct (refill_sinv k pos s Hk Hs Hp) as (s1 & -> & ? & ? & ?); [apply Hd|].
          exists s1. split; [reflexivity|]. split; [assumption|]. split; [lia|]. auto.
      - exists s. split; [reflexivity|]. split; [assumption|]. destruct Hs as (_ & _ & ? & _). split; [lia|]. auto. }
    rewrite Hr. cbn [bind]. clear Hr.
    set (tc := Nat.min (have s1 - buf_ptr s1) (n - dp)).
    assert (Htc : 0 < tc) by (unfold tc; lia).
    assert (Htc1 : tc <= have s1 - buf_ptr s1) by (unfold tc; lia).
    assert (Htc2 : tc <= n - dp) by (unfold tc; lia).
    clearbody tc.
    destruct Hs1 as (Hb & Hh & Hple & c & Hc & Hpos & Hsl).
    rewrite (slice_app_split _ _ (buf_ptr s1 + tc)) in Hsl by lia.
    replace (have s1 - buf_ptr s1) with (tc + (have s1 - (buf_ptr s1 + tc))) in Hsl by lia.
    rewrite seq_app, map_app in Hsl.
    assert (Hsl' := Hsl).
    apply (f_equal (firstn tc)) in Hsl. apply (f_equal (skipn tc)) in Hsl'.
    assert (Hls : length (slice (buf_ptr s1) (buf_ptr s1 + tc) (buf s1)) = tc).
    { unfold slice. rewrite firstn_length, skipn_length. lia. }
    rewrite !firstn_app, Hls, map_length, seq_length, Nat.sub_diag, !firstn_O, !app_nil_r in Hsl.
    rewrite !skipn_app, Hls, map_length, seq_length, Nat.sub_diag in Hsl'.
    rewrite firstn_all2 in Hsl by lia. rewrite firstn_all2 in Hsl by (rewrite map_length, seq_length; lia).
    rewrite (skipn_all2 (slice _ _ _)) in Hsl' by lia. rewrite (skipn_all2 (map _ _)) in Hsl' by (rewrite map_length, seq_length; lia).
    cbn [app skipn] in Hsl'.
    rewrite Hsl.
    edestruct (IH {| ctr := ctr s1; buf := buf s1; have := have s1; buf_ptr := buf_ptr s1 + tc |} (pos + tc) (dp + tc))
      as (s' & Hs' & Hi' & Hh'); [exact Hk | | | lia | lia |].
    + unfold sinv; cbn [ctr buf have buf_ptr]. split; [exact Hb|]. split; [exact Hh|]. split; [lia|].
      exists c. split; [exact Hc|]. split; [lia|]. exact Hsl'.
    + cbn [have]. intros D. specialize (Hd D). split; [tauto|]. apply Hhave; tauto.
    + rewrite Hs'. exists s'. split.
      * f_equal. f_equal. rewrite <- app_assoc, <- map_app. f_equal. f_equal.
        replace (n - dp) with (tc + (n - (dp + tc))) by lia. rewrite seq_app. reflexivity.
      * split; [replace (pos + (n - dp)) with (pos + tc + (n - (dp + tc))) by lia; exact Hi'|].
        intros H64 H16. apply Hh'; auto.
Qed.

Lemma fill_bytes_spec k n s pos :
  length k = 16 -> sinv k pos s -> (dbg E = true -> n <= 64 /\ have s = 16) ->
  exists s', fill_bytes E s n = Ret (s', map (ks E k) (seq pos n)) /\ sinv k (pos + n) s' /\
             (n <= 64 -> have s = 16 -> have s' = 16).
Proof.
  intros Hk Hs Hd. unfold fill_bytes.
  destruct (fill_loop_spec k n n s pos 0 [] Hk Hs Hd ltac:(lia) ltac:(lia)) as (s' & H & Hi & Hh).
  exists s'. rewrite Nat.sub_0_r in *. auto.
Qed.

Lemma fill_loop_S fuel s n dest_ptr dest :
  fill_loop (S fuel) E s n dest_ptr dest =
  if dest_ptr <? n then
        let! s1 := (if buf_ptr s =? have s
                    then (if 4 * AES_BLOCK_SIZE <? n then Ret (refill8 E s) else refill E s)
                    else Ret s) in
        let to_copy := Nat.min (have s1 - buf_ptr s1) (n - dest_ptr) in
        let s2 := {| ctr := ctr s1; buf := buf s1; have := have s1; buf_ptr := buf_ptr s1 + to_copy |} in
        fill_loop fuel E s2 n (dest_ptr + to_copy)
                  (dest ++ slice (buf_ptr s1) (buf_ptr s1 + to_copy) (buf s1))
  else Ret (s, dest).
Proof. reflexivity. Qed.

(** a 16-byte read on a block boundary *)
Lemma fill16 s :
  length (ctr s) = 16 -> length (buf s) = 128 -> buf_ptr s = 16 -> have s = 16 ->
  exists s', fill_bytes E s 16 = Ret (s', xor_in_place (aes0 E (ctr s)) (ctr s)) /\
             ctr s' = inc_be E (ctr s) /\ length (buf s') = 128 /\ buf_ptr s' = 16 /\ have s' = 16.
Proof.
  intros Hc Hb Hp Hh.
  assert (Hs : sinv (ctr s) 0 s).
  { unfold sinv. rewrite Hp, Hh. repeat split; auto. exists 0. repeat split. }
  destruct (refill_sinv _ _ _ Hc Hs) as (s1 & Hr & Hs1 & Hh1 & Hp1); [congruence | auto |].
  unfold fill_bytes. rewrite fill_loop_S. change (0 <? 16) with true. cbv iota.
  rewrite Hp, Hh. change (16 =? 16) with true. change (4 * AES_BLOCK_SIZE <? 16) with false. cbv iota.
  rewrite Hr. cbn [bind]. rewrite Hh1, Hp1. cbv zeta.
  change (Nat.min (16 - 0) (16 - 0)) with 16. change (0 + 16) with 16. rewrite fill_loop_S.
  change (16 <? 16) with false. cbv iota. eexists. split; [|cbn [ctr buf buf_ptr have]; split; [|auto]].
  - f_equal. f_equal. destruct Hs1 as (_ & _ & _ & c & _ & Hpos & Hsl). rewrite Hh1, Hp1 in *.
    cbn [app]. rewrite Hsl. replace (16 - 0) with 16 by reflexivity.
    change (xor_in_place _ _) with (ks_block E (ctr s) 0). rewrite ks_block_bytes by exact Hc. reflexivity.
  - unfold refill in Hr. inv_ret Hr. injection Hr as <-. reflexivity.
  - destruct Hs1 as (Hl & _). auto.
Qed.

Lemma skip16 s : buf_ptr s = 16 -> have s = 16 ->
  exists s', skip_block E s = Ret s' /\ ctr s' = inc_be E (ctr s) /\ buf s' = buf s /\ buf_ptr s' = 16 /\ have s' = 16.
Proof.
  intros Hp Hh. unfold skip_block. rewrite Hp, Hh.
  assert (debug_assert (dbg E) (16 mod AES_BLOCK_SIZE =? 0) = Ret tt) as -> by (apply debug_assert_true; reflexivity).
  assert (debug_assert (dbg E) (16 =? AES_BLOCK_SIZE) = Ret tt) as -> by (apply debug_assert_true; reflexivity).
  cbn [bind]. eexists. split; [reflexivity|]. cbn. auto.
Qed.

Lemma mask_bits key : (N.land (byte0 (mask_key key)) 1 =? 0)%N = true /\ (N.land (byte0 (mask_key key)) 2 =? 0)%N = true.
Proof.
  destruct key as [|b key]; [split; reflexivity|]. cbn [mask_key byte0 hd].
  rewrite <- !N.land_assoc. change (N.land 252 1) with 0%N. change (N.land 252 2) with 0%N.
  rewrite N.land_0_r. split; reflexivity.
Qed.
Lemma mask_key_length key : length (mask_key key) = length key.
Proof. destruct key; reflexivity. Qed.

Lemma expand_dir_on_spec s key left right :
  length key = 16 -> length (buf s) = 128 ->
  exists s', expand_dir_on E s key left right =
    Ret (s', {| po_bits := (true, true);
                po_seeds := (if left then ks_block E (mask_key key) 0 else repeat 0%N 16,
                             if right then ks_block E (mask_key key) 1 else repeat 0%N 16) |})
    /\ length (buf s') = 128.
Proof.
  intros Hk Hb. unfold expand_dir_on.
  destruct (mask_bits key) as [-> ->].
  set (mk := mask_key key). assert (Hmk : length mk = 16) by (unfold mk; rewrite mask_key_length; exact Hk).
  clearbody mk.
  set (s0 := set_key s mk).
  assert (exists s1, (if left then fill_bytes E s0 16
                    else let! s' := skip_block E s0 in Ret (s', repeat 0%N 16)) =
                     Ret (s1, if left then ks_block E mk 0 else repeat 0%N 16) /\
          ctr s1 = inc_be E mk /\ length (buf s1) = 128 /\ buf_ptr s1 = 16 /\ have s1 = 16)
    as (s1 & H1 & Hc1 & Hb1 & Hp1 & Hh1).
  { destruct left.
    - destruct (fill16 s0) as (s1 & -> & ? & ? & ? & ?); try reflexivity; try assumption. exists s1. auto.
    - destruct (skip16 s0) as (s1 & -> & ? & Hb' & ? & ?); try reflexivity. exists s1. rewrite Hb'. auto. }
  rewrite H1. cbn [bind].
  assert (exists s2, (if right then fill_bytes E s1 16
                    else let! s' := skip_block E s1 in Ret (s', repeat 0%N 16)) =
                     Ret (s2, if right then ks_block E mk 1 else repeat 0%N 16) /\ length (buf s2) = 128)
    as (s2 & H2 & Hb2).
  { destruct right.
    - destruct (fill16 s1) as (s2 & -> & ? & ? & ? & ?); try assumption.
      + rewrite Hc1. apply inc_be_length, Hmk.
      + exists s2. rewrite Hc1. auto.
    - destruct (skip16 s1) as (s2 & -> & ? & Hb' & ? & ?); try assumption. exists s2. rewrite Hb'. auto. }
  rewrite H2. cbn [bind]. exists s2. auto.
Qed.

Lemma stream_new_buf : length (buf stream_new) = 128.  Proof. reflexivity. Qed.

Lemma expand_dir_spec key left right : length key = 16 ->
  expand_dir E key left right =
    Ret {| po_bits := (true, true);
           po_seeds := (if left then ks_block E (mask_key key) 0 else repeat 0%N 16,
                        if right then ks_block E (mask_key key) 1 else repeat 0%N 16) |}.
Proof.
  intros Hk. unfold expand_dir. destruct (expand_dir_on_spec stream_new key left right Hk stream_new_buf) as (s' & -> & _).
  reflexivity.
Qed.

(** value drawn by from_rng at position [pos] *)
Definition ks_field (k : bytes) (pos : nat) : fld :=
  of_N (N.lor (N.shiftl (le_num (map (ks E k) (seq (pos + 8) 8))) 64) (le_num (map (ks E k) (seq pos 8)))).

Lemma from_rng_spec k pos s : length k = 16 -> sinv k pos s -> (dbg E = true -> have s = 16) ->
  exists s', from_rng E s = Ret (s', ks_field k pos) /\ sinv k (pos + 16) s' /\ (have s = 16 -> have s' = 16).
Proof.
  intros Hk Hs Hd. unfold from_rng, next_u64.
  destruct (fill_bytes_spec k 8 s pos Hk Hs) as (s1 & -> & Hs1 & Hh1); [intros; split; [lia|auto]|].
  cbn [bind].
  destruct (fill_bytes_spec k 8 s1 (pos + 8) Hk Hs1) as (s2 & -> & Hs2 & Hh2); [intros; split; [lia|apply Hh1; [lia|auto]]|].
  cbn [bind]. exists s2. split; [reflexivity|]. split; [rewrite <- Nat.add_assoc in Hs2; exact Hs2|].
  intros. apply Hh2; [lia|]. apply Hh1; [lia|assumption].
Qed.

Lemma draw_fields_spec k n : forall pos s, length k = 16 -> sinv k pos s -> (dbg E = true -> have s = 16) ->
  exists s', draw_fields E s n = Ret (s', map (fun i => ks_field k (pos + 16 * i)) (seq 0 n)) /\
             sinv k (pos + 16 * n) s' /\ (have s = 16 -> have s' = 16).
Proof.
  induction n as [|n IH]; intros pos s Hk Hs Hd; cbn [draw_fields].
  - exists s. rewrite Nat.add_0_r. auto.
  - destruct (from_rng_spec k pos s Hk Hs Hd) as (s1 & -> & Hs1 & Hh1). cbn [bind].
    destruct (IH (pos + 16) s1 Hk Hs1) as (s2 & -> & Hs2 & Hh2); [auto|]. cbn [bind].
    exists s2. split; [|split; [|auto]].
    + f_equal. f_equal. cbn [seq map]. f_equal; [f_equal; lia|].
      rewrite <- seq_shift, map_map. apply map_ext. intros i. f_equal. lia.
    + replace (pos + 16 * S n) with (pos + 16 + 16 * n) by lia. exact Hs2.
Qed.

Lemma convert_on_spec s key len : length key = 16 -> length (buf s) = 128 ->
  exists s', convert_on E s key len =
    Ret (s', (ks_block E key 0, map (fun i => ks_field key (16 + 16 * i)) (seq 0 (len + 1)))) /\ length (buf s') = 128.
Proof.
  intros Hk Hb. unfold convert_on.
  pose proof (set_key_sinv s key Hb) as Hs0.
  destruct (fill_bytes_spec key 16 _ 0 Hk Hs0) as (s1 & -> & Hs1 & Hh1); [intros; split; [lia|reflexivity]|].
  cbn [bind].
  destruct (draw_fields_spec key (len + 1) 16 s1 Hk Hs1) as (s2 & -> & Hs2 & _); [intros; apply Hh1; [lia|reflexivity]|].
  cbn [bind]. exists s2. split; [|apply Hs2].
  f_equal. f_equal. f_equal. rewrite ks_block_bytes by exact Hk. reflexivity.
Qed.

Lemma convert_spec key len : length key = 16 ->
  convert E key len = Ret (ks_block E key 0, map (fun i => ks_field key (16 + 16 * i)) (seq 0 (len + 1))).
Proof.
  intros Hk. unfold convert. destruct (convert_on_spec stream_new key len Hk stream_new_buf) as (s' & -> & _). reflexivity.
Qed.

End WithEnv.
