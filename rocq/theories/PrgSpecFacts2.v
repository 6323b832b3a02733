(** Further lemmas for PropPrg.v. *)
From Verif Require Import Base BaseFacts Field Util Env Prg SpecPrg PrgFacts PrgSpecFacts RefEnv.

Lemma C06_expand_dir_lemma : forall E s1 s2 key l r,
  env_ok E -> is_key key -> length (buf s1) = 128 -> length (buf s2) = 128 ->
  exists s1' s2' o,
    expand_dir_on E s1 key l r = Ret (s1', o) /\ expand_dir_on E s2 key l r = Ret (s2', o) /\
    length (buf s1') = 128 /\ length (buf s2') = 128 /\ expand_dir E key l r = Ret o /\
    po_seeds o = (if l then stream_bytes E (mask_key key) 0 16 else repeat 0%N 16,
                  if r then stream_bytes E (mask_key key) 16 16 else repeat 0%N 16).
Proof.
  intros E s1 s2 key l r Hok Hk H1 H2.
  destruct (expand_dir_on_stream E s1 key l r Hok Hk H1) as (s1' & Hs1 & Hb1).
  destruct (expand_dir_on_stream E s2 key l r Hok Hk H2) as (s2' & Hs2 & Hb2).
  destruct (expand_dir_on_stream E stream_new key l r Hok Hk stream_new_buf) as (s3' & Hs3 & _).
  eexists s1', s2', _. split; [exact Hs1|]. split; [exact Hs2|]. split; [exact Hb1|]. split; [exact Hb2|].
  split; [|reflexivity]. unfold expand_dir. rewrite Hs3. reflexivity.
Qed.

Lemma C06_convert_lemma : forall E s1 s2 key len,
  env_ok E -> is_key key -> length (buf s1) = 128 -> length (buf s2) = 128 ->
  exists s1' s2' seed word,
    convert_on E s1 key len = Ret (s1', (seed, word)) /\ convert_on E s2 key len = Ret (s2', (seed, word)) /\
    length (buf s1') = 128 /\ length (buf s2') = 128 /\ convert E key len = Ret (seed, word) /\
    seed = stream_bytes E key 0 16 /\ length word = len + 1 /\
    forall i x, nth_error word i = Some x -> x = field_of_bytes (stream_bytes E key (16 + 16 * i) 16).
Proof.
  intros E s1 s2 key len Hok Hk H1 H2.
  destruct (convert_on_stream E s1 key len Hok Hk H1) as (s1' & Hs1 & Hb1).
  destruct (convert_on_stream E s2 key len Hok Hk H2) as (s2' & Hs2 & Hb2).
  destruct (convert_on_stream E stream_new key len Hok Hk stream_new_buf) as (s3' & Hs3 & _).
  eexists s1', s2', _, _. split; [exact Hs1|]. split; [exact Hs2|]. split; [exact Hb1|]. split; [exact Hb2|].
  split; [unfold convert; rewrite Hs3; reflexivity|]. split; [reflexivity|].
  split; [rewrite map_length, seq_length; reflexivity|].
  intros i x Hx. rewrite nth_error_map' in Hx.
  destruct (Nat.lt_ge_cases i (len + 1)) as [Hi|Hi].
  - rewrite nth_error_seq in Hx by exact Hi. injection Hx as <-. reflexivity.
  - rewrite (proj2 (nth_error_None (seq 0 (len + 1)) i)) in Hx by (rewrite seq_length; exact Hi). discriminate.
Qed.

Lemma is_key_dec k : (length k =? 16) && forallb (fun x => x <? 256)%N k = true -> is_key k.
Proof.
  intros H. apply andb_true_iff in H. destruct H as [H1 H2]. split; [apply Nat.eqb_eq, H1|].
  apply Forall_forall. intros x Hx. rewrite forallb_forall in H2. apply N.ltb_lt, H2, Hx.
Qed.

Lemma C06_example_proof :
  let E := ref_env true true in
  let k := map N.of_nat (seq 7 16) in
  match fill_bytes E (set_key stream_new k) 70 with
  | Ret (s1, _) => is_key k /\ length (buf s1) = 128 /\ buf_ptr s1 = 70 /\ have s1 = 128
  | Panic _ => False
  end.
Proof.
  cbv zeta. set (o := fill_bytes _ _ _). vm_compute in o. subst o.
  repeat split; try (vm_compute; reflexivity). apply is_key_dec. vm_compute. reflexivity.
Qed.

Lemma C07_example_proof :
  let E := ref_env true true in
  let k := map N.of_nat (seq 7 16) in
  match expand_dir E k false true, expand E k with
  | Ret one, Ret full => fst (po_seeds one) = repeat 0%N 16 /\ fst (po_seeds full) <> repeat 0%N 16 /\
                         snd (po_seeds one) = snd (po_seeds full)
  | _, _ => False
  end.
Proof. vm_compute. repeat split. discriminate. Qed.

Lemma C08_example_proof :
  let k := map N.of_nat (seq 7 16) in
  match reads (ref_env false true) (set_key stream_new k) [3; 70; 0; 200; 64],
        reads (ref_env false true) (set_key stream_new k) [337] with
  | Ret (_, o), Ret (_, [o']) => concat o = o'
  | _, _ => False
  end /\ is_ret (reads (ref_env true true) (set_key stream_new k) [128; 1]) = false
      /\ is_ret (reads (ref_env true true) (set_key stream_new k) [64; 1; 70; 16]) = true.
Proof. vm_compute. repeat split. Qed.

Lemma C11_refuted_lemma : exists debug key,
  is_key key /\ expand (ref_env debug true) key <> expand (ref_env debug false) key /\
  is_ret (expand (ref_env debug true) key) = true /\ is_ret (expand (ref_env debug false) key) = true.
Proof.
  exists true, (repeat 0%N 16). split; [apply is_key_dec; vm_compute; reflexivity|].
  vm_compute. repeat split. discriminate.
Qed.

Lemma C14_example_proof : get_encoded (of_Z (P + 258)) = [2; 1; 0; 0; 0; 0; 0; 0; 0; 0; 0; 0; 0; 0; 0; 0]%N.
Proof. vm_compute. reflexivity. Qed.

(** *** exact characterisation of the debug panics (C08) *)
Definition read_sizes (n h p w : nat) : nat * nat :=
  if w <=? h - p then (h, p + w)
  else if 64 <? n then (128, (w - (h - p) - 1) mod 128 + 1)
  else (16, (w - (h - p) - 1) mod 16 + 1).

Lemma sinv_step E k pos s tc : length k = 16 -> sinv E k pos s -> tc <= have s - buf_ptr s ->
  slice (buf_ptr s) (buf_ptr s + tc) (buf s) = map (ks E k) (seq pos tc) /\
  sinv E k (pos + tc) {| ctr := ctr s; buf := buf s; have := have s; buf_ptr := buf_ptr s + tc |}.
Proof.
  intros Hk (Hb & Hh & Hple & c & Hc & Hpos & Hsl) Htc.
  rewrite (slice_app_split _ _ (buf_ptr s + tc)) in Hsl by lia.
  replace (have s - buf_ptr s) with (tc + (have s - (buf_ptr s + tc))) in Hsl by lia.
  rewrite seq_app, map_app in Hsl.
  assert (Hls : length (slice (buf_ptr s) (buf_ptr s + tc) (buf s)) = tc).
  { unfold slice. rewrite firstn_length, skipn_length. lia. }
  assert (H1 := f_equal (firstn tc) Hsl). assert (H2 := f_equal (skipn tc) Hsl).
  rewrite !firstn_app_exact in H1 by (try exact Hls; rewrite map_length, seq_length; reflexivity).
  rewrite !skipn_app_exact in H2 by (try exact Hls; rewrite map_length, seq_length; reflexivity).
  split; [exact H1|]. unfold sinv; cbn [ctr buf have buf_ptr]. split; [exact Hb|]. split; [exact Hh|]. split; [lia|].
  exists c. split; [exact Hc|]. split; [lia|]. exact H2.
Qed.

Lemma mod_sub a m : 0 < m -> m <= a -> (a - m) mod m = a mod m.
Proof.
  intros Hm H. rewrite <- (Nat.sub_add m a H) at 2. replace (a - m + m) with (a - m + 1 * m) by lia.
  rewrite Nat.mod_add by lia. reflexivity.
Qed.

Lemma fill_loop_gen E k n : env_ok E -> length k = 16 -> forall fuel s pos dp dest,
  sinv E k pos s -> dp <= n -> n - dp <= fuel ->
  (dbg E = true -> n <= 64 -> have s = 16 \/ n - dp <= have s - buf_ptr s) ->
  exists s', fill_loop fuel E s n dp dest = Ret (s', dest ++ map (ks E k) (seq pos (n - dp))) /\
             sinv E k (pos + (n - dp)) s' /\
             (n <= 64 -> have s = 16 \/ n - dp <= have s - buf_ptr s ->
              (have s', buf_ptr s') = read_sizes n (have s) (buf_ptr s) (n - dp)) /\
             (64 < n -> (have s', buf_ptr s') = read_sizes n (have s) (buf_ptr s) (n - dp)).
Proof.
  intros Hok Hk. induction fuel as [|fuel IH]; intros s pos dp dest Hs Hdp Hf Hd.
  - cbn [fill_loop]. destruct (dp <? n) eqn:Hlt; [lia|]. exists s. replace (n - dp) with 0 by lia. cbn [seq map].
    rewrite app_nil_r, Nat.add_0_r. unfold read_sizes. cbn [Nat.leb]. rewrite Nat.add_0_r. auto.
  - rewrite fill_loop_S. destruct (dp <? n) eqn:Hlt.
    2:{ exists s. replace (n - dp) with 0 by lia. cbn [seq map].
        rewrite app_nil_r, Nat.add_0_r. unfold read_sizes. cbn [Nat.leb]. rewrite Nat.add_0_r. auto. }
    apply Nat.ltb_lt in Hlt.
    assert (exists s1, (if buf_ptr s =? have s
                    then (if 4 * AES_BLOCK_SIZE <? n then Ret (refill8 E s) else refill E s)
                    else Ret s) = Ret s1 /\ sinv E k pos s1 /\ buf_ptr s1 < have s1 /\
              ((buf_ptr s < have s /\ have s1 = have s /\ buf_ptr s1 = buf_ptr s) \/
               (buf_ptr s = have s /\ buf_ptr s1 = 0 /\ have s1 = if 64 <? n then 128 else 16)))
      as (s1 & Hr & Hs1 & Hlt1 & Hcase).
    { destruct (buf_ptr s =? have s) eqn:Hp.
      - apply Nat.eqb_eq in Hp. change (4 * AES_BLOCK_SIZE) with 64. destruct (64 <? n) eqn:H64.
        + exists (refill8 E s). destruct (refill8_sinv E Hok k pos s Hk Hs Hp) as (? & ? & ?).
          split; [reflexivity|]. split; [assumption|]. split; [lia|]. right. auto.
        + apply Nat.ltb_ge in H64.
          destruct (refill_sinv E Hok k pos s Hk Hs Hp) as (s1 & -> & ? & ? & ?); [intros D; specialize (Hd D H64); lia|].
          exists s1. split; [reflexivity|]. split; [assumption|]. split; [lia|]. right. auto.
      - apply Nat.eqb_neq in Hp. exists s. split; [reflexivity|]. split; [assumption|].
        destruct Hs as (_ & _ & ? & _). split; [lia|]. left. repeat split; lia. }
    rewrite Hr. cbn [bind]. cbv zeta. clear Hr.
    set (tc := Nat.min (have s1 - buf_ptr s1) (n - dp)).
    assert (Htc1 : tc <= have s1 - buf_ptr s1) by (unfold tc; lia).
    destruct (sinv_step E k pos s1 tc Hk Hs1 Htc1) as [Hsl Hs2]. rewrite Hsl.
    edestruct (IH {| ctr := ctr s1; buf := buf s1; have := have s1; buf_ptr := buf_ptr s1 + tc |} (pos + tc) (dp + tc))
      as (s' & Hs' & Hi' & HA & HB); [exact Hs2 | unfold tc; lia | unfold tc; lia | |].
    + cbn [have buf_ptr]. intros D H64. specialize (Hd D H64). unfold tc.
      destruct Hcase as [(Ha & Hb & Hc)|(Ha & Hb & Hc)].
      * rewrite Hb, Hc. destruct Hd as [Hd|Hd]; [left; exact Hd|right; lia].
      * left. rewrite Hc. destruct (64 <? n) eqn:X; [lia|reflexivity].
    + cbn [have buf_ptr] in *. rewrite Hs'. exists s'. split; [|split; [|split]].
      * f_equal. f_equal. rewrite <- app_assoc, <- map_app. f_equal. f_equal.
        replace (n - dp) with (tc + (n - (dp + tc))) by (unfold tc; lia). rewrite seq_app. reflexivity.
      * replace (pos + (n - dp)) with (pos + tc + (n - (dp + tc))) by (unfold tc; lia). exact Hi'.
      * intros H64 Hor. rewrite HA; [|exact H64|].
        { unfold read_sizes. rewrite (proj2 (Nat.ltb_ge 64 n) H64).
          destruct Hcase as [(Ha & Hb & Hc)|(Ha & Hb & Hc)].
          - rewrite Hb, Hc in *. destruct (n - dp <=? have s - buf_ptr s) eqn:X.
            + apply Nat.leb_le in X. rewrite (proj2 (Nat.leb_le _ _)) by (unfold tc; lia). f_equal. unfold tc. lia.
            + apply Nat.leb_gt in X. rewrite (proj2 (Nat.leb_gt _ _)) by (unfold tc; lia). f_equal. f_equal. f_equal.
              unfold tc. lia.
          - rewrite (proj2 (Nat.ltb_ge 64 n) H64) in Hc. rewrite Hb, Hc, Ha in *.
            rewrite Nat.sub_diag. rewrite (proj2 (Nat.leb_gt (n - dp) 0)) by lia.
            destruct (Nat.le_gt_cases (n - dp) 16) as [Hx|Hx].
            + rewrite (proj2 (Nat.leb_le _ _)) by (unfold tc; lia). f_equal.
              rewrite Nat.mod_small by lia. unfold tc. lia.
            + rewrite (proj2 (Nat.leb_gt _ _)) by (unfold tc; lia). f_equal. f_equal.
              replace tc with 16 by (unfold tc; lia).
              rewrite <- (mod_sub (n - dp - 0 - 1) 16) by lia. f_equal. lia. }
        { destruct Hcase as [(Ha & Hb & Hc)|(Ha & Hb & Hc)].
          - rewrite Hb, Hc. unfold tc. destruct Hor; [left; assumption|right; lia].
          - left. rewrite Hc, (proj2 (Nat.ltb_ge 64 n) H64). reflexivity. }
      * intros H64. rewrite HB by exact H64. unfold read_sizes. rewrite (proj2 (Nat.ltb_lt 64 n) H64).
        destruct Hcase as [(Ha & Hb & Hc)|(Ha & Hb & Hc)].
        { rewrite Hb, Hc in *. destruct (n - dp <=? have s - buf_ptr s) eqn:X.
            + apply Nat.leb_le in X. rewrite (proj2 (Nat.leb_le _ _)) by (unfold tc; lia). f_equal. unfold tc. lia.
            + apply Nat.leb_gt in X. rewrite (proj2 (Nat.leb_gt _ _)) by (unfold tc; lia). f_equal. f_equal. f_equal.
              unfold tc. lia. }
        { rewrite (proj2 (Nat.ltb_lt 64 n) H64) in Hc. rewrite Hb, Hc, Ha in *.
            rewrite Nat.sub_diag. rewrite (proj2 (Nat.leb_gt (n - dp) 0)) by lia.
            destruct (Nat.le_gt_cases (n - dp) 128) as [Hx|Hx].
            + rewrite (proj2 (Nat.leb_le _ _)) by (unfold tc; lia). f_equal.
              rewrite Nat.mod_small by lia. unfold tc. lia.
            + rewrite (proj2 (Nat.leb_gt _ _)) by (unfold tc; lia). f_equal. f_equal.
              replace tc with 128 by (unfold tc; lia).
              rewrite <- (mod_sub (n - dp - 0 - 1) 128) by lia. f_equal. lia. }
Qed.

Lemma fill_loop_panics E n : dbg E = true -> n <= 64 -> forall fuel s dest,
  have s = 128 -> buf_ptr s <= 128 -> 128 - buf_ptr s < n -> n <= fuel ->
  fill_loop fuel E s n 0 dest = Panic PDebugAssert.
Proof.
  intros Hd Hn fuel s dest Hh Hp Hlt Hf.
  assert (Hdrained : forall fuel s dp dest, have s = 128 -> buf_ptr s = 128 -> dp < n -> 0 < fuel ->
            fill_loop fuel E s n dp dest = Panic PDebugAssert).
  { clear - Hd Hn. intros fuel s dp dest Hh Hp Hlt Hf. destruct fuel as [|fuel]; [lia|].
    rewrite fill_loop_S. rewrite (proj2 (Nat.ltb_lt dp n) Hlt), Hh, Hp, Nat.eqb_refl.
    change (4 * AES_BLOCK_SIZE) with 64. rewrite (proj2 (Nat.ltb_ge 64 n) Hn).
    unfold refill. rewrite Hp, Hd. reflexivity. }
  destruct (Nat.eq_dec (buf_ptr s) 128) as [He|He].
  - apply Hdrained; lia.
  - destruct fuel as [|fuel]; [lia|]. rewrite fill_loop_S. rewrite (proj2 (Nat.ltb_lt 0 n)) by lia.
    rewrite Hh. rewrite (proj2 (Nat.eqb_neq (buf_ptr s) 128) He). cbn [bind]. cbv zeta.
    rewrite Hh, Nat.sub_0_r, Nat.min_l by lia. apply Hdrained; cbn [have buf_ptr]; lia.
Qed.

Lemma debug_exact E k ns : env_ok E -> is_key k -> dbg E = true -> forall s pos, sinv E k pos s ->
  if drains_then_small (have s) (buf_ptr s) ns
  then reads E s ns = Panic PDebugAssert
  else exists s' out, reads E s ns = Ret (s', out) /\
         map (@length N) out = ns /\ concat out = stream_bytes E k pos (list_sum ns).
Proof.
  intros Hok Hk Hd. induction ns as [|n ns IH]; intros s pos Hs; cbn [drains_then_small reads].
  - exists s, []. auto.
  - assert (Hbasic : have s = 16 \/ have s = 128) by apply Hs.
    assert (Hptr : buf_ptr s <= have s) by apply Hs.
    assert (Hcont : forall h p, (h, p) = read_sizes n (have s) (buf_ptr s) n ->
              (n <= 64 -> have s = 16 \/ n <= have s - buf_ptr s) ->
              if drains_then_small h p ns
              then (let! '(s1, b) := fill_bytes E s n in let! '(s2, bs) := reads E s1 ns in Ret (s2, b :: bs)) = Panic PDebugAssert
              else exists s' out, (let! '(s1, b) := fill_bytes E s n in let! '(s2, bs) := reads E s1 ns in Ret (s2, b :: bs)) = Ret (s', out) /\
                map (@length N) out = n :: ns /\ concat out = stream_bytes E k pos (list_sum (n :: ns))).
    { intros h p Hhp Hor. unfold fill_bytes.
      destruct (fill_loop_gen E k n Hok (proj1 Hk) n s pos 0 [] Hs ltac:(lia) ltac:(lia)) as (s1 & -> & Hs1 & HA & HB).
      { rewrite Nat.sub_0_r. auto. }
      rewrite Nat.sub_0_r in *. cbn [bind app].
      assert (Hsz : (have s1, buf_ptr s1) = (h, p)).
      { rewrite Hhp. destruct (Nat.le_gt_cases n 64); auto. }
      injection Hsz as <- <-. specialize (IH s1 (pos + n) Hs1).
      destruct (drains_then_small (have s1) (buf_ptr s1) ns).
      - rewrite IH. reflexivity.
      - destruct IH as (s2 & out & -> & Hl & Hc). cbn [bind]. eexists _, _. split; [reflexivity|].
        cbn [map concat list_sum fold_right]. change (fold_right Nat.add 0 ns) with (list_sum ns).
        rewrite Hl, Hc, ks_bytes_spec by assumption. split.
        + unfold stream_bytes. rewrite map_length, seq_length. reflexivity.
        + unfold stream_bytes. rewrite <- map_app, <- seq_app. reflexivity. }
    destruct (n <=? have s - buf_ptr s) eqn:H1.
    + apply Hcont; [unfold read_sizes; rewrite H1; reflexivity|]. apply Nat.leb_le in H1. auto.
    + destruct (64 <? n) eqn:H2.
      * apply Hcont; [unfold read_sizes; rewrite H1, H2; reflexivity|]. apply Nat.ltb_lt in H2. lia.
      * destruct (have s =? 16) eqn:H3.
        -- apply Hcont; [unfold read_sizes; rewrite H1, H2; reflexivity|]. apply Nat.eqb_eq in H3. auto.
        -- apply Nat.leb_gt in H1. apply Nat.ltb_ge in H2. apply Nat.eqb_neq in H3.
           unfold fill_bytes. rewrite fill_loop_panics; [reflexivity| | | | | |]; try assumption; lia.
Qed.

Lemma C08_debug_exact_lemma : forall E k s ns,
  env_ok E -> is_key k -> length (buf s) = 128 -> dbg E = true ->
  if drains_then_small 16 16 ns
  then reads E (set_key s k) ns = Panic PDebugAssert
  else exists s' out, reads E (set_key s k) ns = Ret (s', out) /\
         map (@length N) out = ns /\ concat out = stream_bytes E k 0 (list_sum ns).
Proof.
  intros E k s ns Hok Hk Hb Hd. exact (debug_exact E k ns Hok Hk Hd (set_key s k) 0 (stream_sinv E s k Hb)).
Qed.
