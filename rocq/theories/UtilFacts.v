(** Proofs about Util.v. *)
From Verif Require Import Base BaseFacts Field Util SpecUtil.
From Coq Require Import Permutation.

(** *** C12 *)
Lemma land_pow_testbit x i : negb (N.land x (N.shiftl 1 (N.of_nat i)) =? 0)%N = N.testbit x (N.of_nat i).
Proof.
  set (n := N.of_nat i). rewrite N.shiftl_1_l.
  destruct (N.testbit x n) eqn:H.
  - apply negb_true_iff, N.eqb_neq. intros H0.
    assert (Hb := f_equal (fun y => N.testbit y n) H0). cbn beta in Hb.
    rewrite N.land_spec, H, N.pow2_bits_true, N.bits_0 in Hb. discriminate.
  - apply negb_false_iff, N.eqb_eq. apply N.bits_inj. intros m. rewrite N.land_spec, N.bits_0, N.pow2_bits_eqb.
    destruct (N.eqb_spec n m) as [<-|]; [rewrite H; reflexivity|apply andb_false_r].
Qed.

Lemma u32_to_bits_spec nbits x : nbits <= 32 ->
  u32_to_bits nbits x = Ret (map (fun i => N.testbit x (N.of_nat i)) (seq 0 nbits)).
Proof.
  intros H. unfold u32_to_bits. rewrite (proj2 (Nat.leb_le nbits 32) H). cbn [assert_ bind]. f_equal.
  apply map_ext. intros i. apply land_pow_testbit.
Qed.

Lemma bits_value_app a b : bits_value (a ++ b) = (bits_value a + 2 ^ N.of_nat (length a) * bits_value b)%N.
Proof.
  induction a as [|x a IH]; cbn [bits_value app length]; [change (2 ^ N.of_nat 0)%N with 1%N; lia|].
  rewrite IH, Nat2N.inj_succ, N.pow_succ_r'. ring.
Qed.
Lemma bits_value_testbits x n :
  bits_value (map (fun i => N.testbit x (N.of_nat i)) (seq 0 n)) = (x mod 2 ^ N.of_nat n)%N.
Proof.
  induction n as [|n IH].
  - cbn. symmetry. apply N.mod_1_r.
  - rewrite seq_S, map_app, bits_value_app, IH, map_length, seq_length. cbn [map bits_value Nat.add].
    rewrite Nat2N.inj_succ, N.pow_succ_r', (N.mul_comm 2 (2 ^ N.of_nat n)), N.mod_mul_r by (try apply N.pow_nonzero; discriminate).
    rewrite N.testbit_eqb.
    pose proof (N.mod_lt (x / 2 ^ N.of_nat n) 2 ltac:(discriminate)) as Hm.
    generalize dependent ((x / 2 ^ N.of_nat n) mod 2)%N. intros y Hy.
    assert (((if (y =? 1)%N then 1 else 0) + 2 * 0)%N = y) as -> by (destruct (N.eqb_spec y 1); lia).
    reflexivity.
Qed.

Lemma C12_lemma nbits x : nbits <= 32 ->
  exists l, u32_to_bits nbits x = Ret l /\ length l = nbits /\
    (forall i, i < nbits -> nth_error l i = Some (N.testbit x (N.of_nat i))) /\
    bits_value l = (x mod 2 ^ N.of_nat nbits)%N.
Proof.
  intros H. rewrite u32_to_bits_spec by exact H. eexists. split; [reflexivity|].
  split; [rewrite map_length; apply seq_length|]. split.
  - intros i Hi. rewrite nth_error_map', nth_error_seq by exact Hi. reflexivity.
  - apply bits_value_testbits.
Qed.
Lemma C12_panic_lemma nbits x : 32 < nbits -> u32_to_bits nbits x = Panic PAssert.
Proof. intros H. unfold u32_to_bits. rewrite (proj2 (Nat.leb_gt nbits 32) H). reflexivity. Qed.

(** *** C13 *)
Definition block_char (blk : list bool) : outcome bytes :=
  let! u := bits_to_u8 blk in unwrap (from_utf8_single u).

Lemma slice_concat8 (pre post : list (list bool)) blk :
  Forall (fun b => length b = 8) pre -> length blk = 8 ->
  slice (8 * length pre) (8 * (length pre + 1)) (concat (pre ++ blk :: post)) = blk.
Proof.
  intros Hpre Hb. assert (Hl : length (concat pre) = 8 * length pre).
  { induction Hpre as [|b pre Hb' _ IH]; [reflexivity|]. cbn [concat length]. rewrite app_length, IH, Hb'. lia. }
  unfold slice. rewrite concat_app. cbn [concat].
  rewrite skipn_app, <- Hl, skipn_all, Nat.sub_diag. cbn [skipn app].
  rewrite Hl. replace (8 * (length pre + 1) - 8 * length pre) with (length blk) by lia.
  rewrite firstn_app, firstn_all, Nat.sub_diag, firstn_O, app_nil_r. reflexivity.
Qed.

Lemma bits_fold post : forall pre out,
  Forall (fun b => length b = 8) pre -> Forall (fun b => length b = 8) post ->
  foldM (fun out b =>
           let byte := slice (8 * b) (8 * (b + 1)) (concat (pre ++ post)) in
           let! u := bits_to_u8 byte in
           let! s := unwrap (from_utf8_single u) in
           Ret (out ++ s)) out (seq (length pre) (length post))
  = let! us := mapM block_char post in Ret (out ++ concat us).
Proof.
  induction post as [|blk post IH]; intros pre out Hpre Hpost.
  - cbn. rewrite app_nil_r. reflexivity.
  - inversion Hpost as [|? ? Hblk Hpost']; subst. cbn [length seq foldM mapM].
    rewrite slice_concat8 by assumption. unfold block_char at 1.
    destruct (bits_to_u8 blk) as [u|p]; [|reflexivity]. cbn [bind].
    destruct (unwrap (from_utf8_single u)) as [c|p]; [|reflexivity]. cbn [bind].
    specialize (IH (pre ++ [blk]) (out ++ c)).
    rewrite <- app_assoc in IH. cbn [app] in IH.
    replace (length (pre ++ [blk])) with (S (length pre)) in IH by (rewrite app_length; cbn; lia).
    rewrite IH; [|apply Forall_app; split; [exact Hpre|constructor; [exact Hblk|constructor]]|exact Hpost'].
    destruct (mapM block_char post) as [us|p]; [|reflexivity]. cbn [bind concat]. rewrite app_assoc. reflexivity.
Qed.

Lemma length_concat8 (blocks : list (list bool)) : Forall (fun b => length b = 8) blocks -> length (concat blocks) = 8 * length blocks.
Proof.
  induction 1 as [|b bs Hb _ IH]; [reflexivity|]. cbn [concat length]. rewrite app_length, IH, Hb. lia.
Qed.

Lemma bits_to_string_blocks blocks : Forall (fun b => length b = 8) blocks ->
  bits_to_string (concat blocks) = let! us := mapM block_char blocks in Ret (concat us).
Proof.
  intros H. unfold bits_to_string. rewrite (length_concat8 blocks H).
  rewrite (Nat.mul_comm 8), Nat.mod_mul, Nat.div_mul by lia. cbn [Nat.eqb assert_ bind].
  exact (bits_fold blocks [] [] (Forall_nil _) H).
Qed.

Lemma bools8 (b : list bool) : length b = 8 ->
  exists b0 b1 b2 b3 b4 b5 b6 b7, b = [b0; b1; b2; b3; b4; b5; b6; b7].
Proof.
  intros H. do 8 (destruct b as [|? b]; [discriminate H|]). destruct b; [|discriminate H]. eauto 10.
Qed.

(** what happens to one byte, by exhaustive check *)
Lemma block_char_spec b : length b = 8 ->
  block_char b = (if nth 7 b false then Panic PUnwrap else Ret [bits_value b]) /\
  u32_to_bits 8 (bits_value b) = Ret b.
Proof.
  intros H. apply bools8 in H. destruct H as (b0 & b1 & b2 & b3 & b4 & b5 & b6 & b7 & ->).
  destruct b0, b1, b2, b3, b4, b5, b6, b7; split; vm_compute; reflexivity.
Qed.

Lemma byte_bits x : (x < 256)%N -> exists b, u32_to_bits 8 x = Ret b /\ length b = 8 /\ bits_value b = x /\ nth 7 b false = (128 <=? x)%N.
Proof.
  intros H. rewrite u32_to_bits_spec by lia. eexists. split; [reflexivity|]. split; [reflexivity|]. split.
  - rewrite bits_value_testbits. apply N.mod_small. exact H.
  - cbn [seq map nth]. rewrite N.testbit_eqb. change (2 ^ N.of_nat 7)%N with 128%N.
    destruct (128 <=? x)%N eqn:He.
    + apply N.leb_le in He. assert (x / 128 = 1)%N as ->; [|reflexivity].
      symmetry. apply (N.div_unique x 128 1 (x - 128)); lia.
    + apply N.leb_gt in He. rewrite N.div_small by exact He. reflexivity.
Qed.

Lemma string_to_bits_blocks s : Forall (fun x => (x < 256)%N) s ->
  exists blocks, string_to_bits s = Ret (concat blocks) /\ Forall (fun b => length b = 8) blocks /\
    map bits_value blocks = s /\ map (fun b => nth 7 b false) blocks = map (fun x => (128 <=? x)%N) s.
Proof.
  intros H. unfold string_to_bits.
  assert (exists blocks, mapM (fun byte => u32_to_bits 8 byte) s = Ret blocks /\ Forall (fun b => length b = 8) blocks /\
    map bits_value blocks = s /\ map (fun b => nth 7 b false) blocks = map (fun x => (128 <=? x)%N) s)
    as (blocks & -> & H1 & H2 & H3).
  { induction H as [|x s Hx Hs (blocks & H1 & H2 & H3 & H4)].
    - exists []. repeat split; constructor.
    - destruct (byte_bits x Hx) as (b & Hb & Hl & Hv & H7). exists (b :: blocks).
      cbn [mapM map]. rewrite Hb, H1. cbn [bind]. rewrite H3, H4, Hv, H7. repeat split. constructor; assumption. }
  exists blocks. auto.
Qed.

Lemma mapM_block_char_ok blocks : Forall (fun b => length b = 8) blocks -> Forall (fun b => nth 7 b false = false) blocks ->
  mapM block_char blocks = Ret (map (fun b => [bits_value b]) blocks).
Proof.
  intros H1 H2. apply mapM_ret. intros b Hb. rewrite Forall_forall in H1, H2.
  destruct (block_char_spec b (H1 b Hb)) as [-> _]. rewrite (H2 b Hb). reflexivity.
Qed.
Lemma mapM_block_char_panic blocks : Forall (fun b => length b = 8) blocks -> Exists (fun b => nth 7 b false = true) blocks ->
  mapM block_char blocks = Panic PUnwrap.
Proof.
  intros H1 H2. induction H1 as [|b blocks Hb Hbs IH]; [inversion H2|].
  cbn [mapM]. destruct (block_char_spec b Hb) as [-> _]. destruct (nth 7 b false) eqn:E; [reflexivity|].
  cbn [bind]. rewrite IH; [reflexivity|]. inversion H2; subst; [congruence|assumption].
Qed.
Lemma concat_singletons {A B} (f : A -> B) l : concat (map (fun a => [f a]) l) = map f l.
Proof. induction l; cbn; [reflexivity|]. rewrite IHl. reflexivity. Qed.

Lemma C13_string_lemma s : Forall (fun x => (x < 128)%N) s ->
  exists bits, string_to_bits s = Ret bits /\ length bits = 8 * length s /\ bits_to_string bits = Ret s.
Proof.
  intros H. destruct (string_to_bits_blocks s) as (blocks & H0 & H1 & H2 & H3).
  { eapply Forall_impl; [|exact H]. cbv beta. intros. lia. }
  exists (concat blocks). split; [exact H0|]. split; [rewrite length_concat8, <- H2, map_length by exact H1; reflexivity|].
  rewrite bits_to_string_blocks, mapM_block_char_ok by
    (try exact H1; apply Forall_forall; intros b Hb; apply (in_map (fun b => nth 7 b false)) in Hb; rewrite H3 in Hb;
     apply in_map_iff in Hb; destruct Hb as (x & Hx & Hin); rewrite Forall_forall in H; specialize (H x Hin); lia).
  cbn [bind]. rewrite concat_singletons, H2. reflexivity.
Qed.

Lemma C13_non_ascii_lemma s : Forall (fun x => (x < 256)%N) s -> Exists (fun x => (128 <= x)%N) s ->
  exists bits, string_to_bits s = Ret bits /\ bits_to_string bits = Panic PUnwrap.
Proof.
  intros H He. destruct (string_to_bits_blocks s H) as (blocks & H0 & H1 & H2 & H3).
  exists (concat blocks). split; [exact H0|].
  rewrite bits_to_string_blocks, mapM_block_char_panic; [reflexivity|exact H1| |exact H1].
  apply Exists_exists in He. destruct He as (x & Hin & Hx). apply Exists_exists.
  apply (in_map (fun x => (128 <=? x)%N)) in Hin. rewrite <- H3 in Hin. apply in_map_iff in Hin.
  destruct Hin as (b & Hb & Hin). exists b. split; [exact Hin|]. rewrite Hb. lia.
Qed.

Lemma split_blocks n : forall bits : list bool, length bits = 8 * n ->
  exists blocks, bits = concat blocks /\ length blocks = n /\ Forall (fun b => length b = 8) blocks /\
    forall i b, nth_error blocks i = Some b -> nth 7 b false = nth (8 * i + 7) bits false.
Proof.
  induction n as [|n IH]; intros bits H.
  - destruct bits; [|discriminate]. exists []. repeat split; [constructor|]. intros [|i]; discriminate.
  - destruct (IH (skipn 8 bits)) as (blocks & H1 & H2 & H3 & H4); [rewrite skipn_length; lia|].
    assert (Hf : length (firstn 8 bits) = 8) by (rewrite firstn_length; lia).
    exists (firstn 8 bits :: blocks). cbn [concat length]. rewrite <- H1, firstn_skipn, H2.
    repeat split; [constructor; assumption|].
    assert (Hsplit : bits = firstn 8 bits ++ skipn 8 bits) by (symmetry; apply firstn_skipn).
    intros [|i] b; cbn [nth_error].
    + intros [= <-]. rewrite Hsplit at 2. rewrite app_nth1 by lia. reflexivity.
    + intros Hb. rewrite (H4 i b Hb). rewrite Hsplit at 2. rewrite app_nth2 by lia. f_equal. lia.
Qed.

Lemma C13_bits_lemma bits : length bits mod 8 = 0 ->
  if forallb (fun i => negb (nth (8 * i + 7) bits false)) (seq 0 (length bits / 8))
  then exists s, bits_to_string bits = Ret s /\ string_to_bits s = Ret bits
  else bits_to_string bits = Panic PUnwrap.
Proof.
  intros Hm. assert (Hl : length bits = 8 * (length bits / 8)) by (rewrite (Nat.div_mod_eq (length bits) 8) at 1; lia).
  destruct (split_blocks _ bits Hl) as (blocks & H1 & H2 & H3 & H4).
  destruct (forallb _ _) eqn:Hall.
  - exists (map bits_value blocks). replace (bits_to_string bits) with (bits_to_string (concat blocks)) by (rewrite <- H1; reflexivity).
    rewrite bits_to_string_blocks, mapM_block_char_ok; [|exact H3| |exact H3].
    + cbn [bind]. rewrite concat_singletons. split; [reflexivity|].
      unfold string_to_bits. rewrite (mapM_intro _ _ blocks); [cbn; congruence|].
      clear - H3. induction H3 as [|b bs Hb _ IH]; cbn; constructor; [|exact IH].
      apply block_char_spec, Hb.
    + apply Forall_forall. intros b Hb. apply In_nth_error in Hb. destruct Hb as [i Hi].
      rewrite (H4 i b Hi). rewrite forallb_forall in Hall. apply negb_true_iff, Hall, in_seq.
      assert (i < length blocks) by (apply nth_error_Some; congruence). lia.
  - rewrite H1. rewrite bits_to_string_blocks, mapM_block_char_panic; [reflexivity|exact H3| |exact H3].
    apply forallb_false in Hall. destruct Hall as (i & Hi & Hn). apply in_seq in Hi. apply negb_false_iff in Hn.
    destruct (nth_error blocks i) as [b|] eqn:Hb; [|apply nth_error_None in Hb; lia].
    apply Exists_exists. exists b. split; [eapply nth_error_In; exact Hb|]. rewrite (H4 i b Hb). exact Hn.
Qed.
Lemma C13_length_lemma bits : length bits mod 8 <> 0 -> bits_to_string bits = Panic PAssert.
Proof. intros H. unfold bits_to_string. rewrite (proj2 (Nat.eqb_neq _ _) H). reflexivity. Qed.

(** *** C49 *)
Lemma xor_vec_nth a : forall b i, nth_error (xor_vec a b) i =
  match nth_error a i, nth_error b i with Some x, Some y => Some (N.lxor x y) | _, _ => None end.
Proof.
  induction a as [|x a IH]; intros [|y b] [|i]; cbn; try reflexivity; [destruct (nth_error a i); reflexivity|apply IH].
Qed.
Lemma xor_vec_length a : forall b, length (xor_vec a b) = Nat.min (length a) (length b).
Proof. induction a as [|x a IH]; intros [|y b]; cbn; auto. Qed.
Lemma xor_three_nth a : forall b c i, nth_error (xor_three_vecs a b c) i =
  match nth_error a i, nth_error b i, nth_error c i with Some x, Some y, Some z => Some (N.lxor (N.lxor x y) z) | _, _, _ => None end.
Proof.
  induction a as [|x a IH]; intros [|y b] [|z c] [|i]; cbn; try reflexivity;
    try (destruct (nth_error a i); try reflexivity; destruct (nth_error b i); reflexivity); try apply IH.
Qed.
Lemma xor_in_place_nth a : forall b i, nth_error (xor_in_place a b) i =
  match nth_error a i, nth_error b i with Some x, Some y => Some (N.lxor x y) | o, _ => o end.
Proof.
  induction a as [|x a IH]; intros [|y b] [|i]; cbn; try reflexivity; [destruct (nth_error a i); reflexivity|apply IH].
Qed.
Lemma vec_add_nth a : forall b i, nth_error (vec_add a b) i =
  match nth_error a i, nth_error b i with Some x, Some y => Some (fadd x y) | o, _ => o end.
Proof.
  induction a as [|x a IH]; intros [|y b] [|i]; cbn; try reflexivity; [destruct (nth_error a i); reflexivity|apply IH].
Qed.
Lemma vec_sub_nth a : forall b i, nth_error (vec_sub a b) i =
  match nth_error a i, nth_error b i with Some x, Some y => Some (fsub x y) | o, _ => o end.
Proof.
  induction a as [|x a IH]; intros [|y b] [|i]; cbn; try reflexivity; [destruct (nth_error a i); reflexivity|apply IH].
Qed.
Lemma xor_in_place_cancel a b : xor_in_place (xor_in_place a b) b = a.
Proof.
  apply nth_error_ext. intros i. rewrite !xor_in_place_nth. destruct (nth_error a i), (nth_error b i); try reflexivity.
  rewrite N.lxor_assoc, N.lxor_nilpotent, N.lxor_0_r. reflexivity.
Qed.
Lemma vec_sub_add_cancel a b : vec_sub (vec_add a b) b = a.
Proof.
  apply nth_error_ext. intros i. rewrite vec_sub_nth, vec_add_nth. destruct (nth_error a i), (nth_error b i); try reflexivity.
  f_equal. ring.
Qed.
Lemma vec_neg_invol a : vec_neg (vec_neg a) = a.
Proof. unfold vec_neg. rewrite map_map. rewrite <- (map_id a) at 2. apply map_ext. intros. ring. Qed.
Lemma vec_neg_nth a i : nth_error (vec_neg a) i = option_map fneg (nth_error a i).
Proof. apply nth_error_map'. Qed.

Lemma C49_xor_lemma a b c i :
  nth_error (xor_vec a b) i =
    match nth_error a i, nth_error b i with Some x, Some y => Some (N.lxor x y) | _, _ => None end /\
  nth_error (xor_three_vecs a b c) i =
    match nth_error a i, nth_error b i, nth_error c i with
    | Some x, Some y, Some z => Some (N.lxor (N.lxor x y) z) | _, _, _ => None end /\
  nth_error (xor_in_place a b) i =
    match nth_error a i, nth_error b i with Some x, Some y => Some (N.lxor x y) | o, _ => o end /\
  xor_in_place (xor_in_place a b) b = a.
Proof. auto using xor_vec_nth, xor_three_nth, xor_in_place_nth, xor_in_place_cancel. Qed.
Lemma C49_vec_lemma a b i :
  nth_error (vec_add a b) i =
    match nth_error a i, nth_error b i with Some x, Some y => Some (fadd x y) | o, _ => o end /\
  nth_error (vec_sub a b) i =
    match nth_error a i, nth_error b i with Some x, Some y => Some (fsub x y) | o, _ => o end /\
  nth_error (vec_neg a) i = option_map fneg (nth_error a i) /\
  vec_sub (vec_add a b) b = a /\ vec_neg (vec_neg a) = a.
Proof. auto 6 using vec_add_nth, vec_sub_nth, vec_neg_nth, vec_sub_add_cancel, vec_neg_invol. Qed.

(** *** C50 *)
Lemma swap_remove_app {A} (l : list A) z i :
  swap_remove (l ++ [z]) i = firstn (length l) (update i z (l ++ [z])).
Proof.
  unfold swap_remove. rewrite rev_app_distr. cbn [rev app].
  rewrite app_length. cbn [length]. replace (length l + 1 - 1) with (length l) by lia. reflexivity.
Qed.
Lemma update_app_l {A} i (a : A) l l' : i < length l -> update i a (l ++ l') = update i a l ++ l'.
Proof. revert i. induction l as [|x l IH]; intros [|i]; cbn; intros; try lia; auto. rewrite IH by lia. reflexivity. Qed.
Lemma update_app_r {A} (a : A) l l' i : update (length l + i) a (l ++ l') = l ++ update i a l'.
Proof. induction l as [|x l IH]; cbn; auto. rewrite IH. reflexivity. Qed.
Lemma update_perm {A} i (x z : A) l : nth_error l i = Some x -> Permutation (z :: l) (x :: update i z l).
Proof.
  revert i. induction l as [|y l IH]; intros [|i]; cbn; try discriminate.
  - intros [= ->]. apply perm_swap.
  - intros H. etransitivity; [apply perm_swap|]. etransitivity; [apply perm_skip, (IH i H)|]. apply perm_swap.
Qed.

Lemma C50_none_lemma {A} (v : list A) i : length v <= i -> take v i = (None, v).
Proof. intros H. unfold take. rewrite (proj2 (nth_error_None v i) H). reflexivity. Qed.
Lemma C50_some_lemma {A} (v : list A) i : i < length v ->
  exists a v', take v i = (Some a, v') /\ nth_error v i = Some a /\ Permutation v (a :: v') /\
    length v' = length v - 1 /\
    forall j, j < length v' -> nth_error v' j = if j =? i then nth_error v (length v - 1) else nth_error v j.
Proof.
  intros Hi. destruct (nth_error v i) as [a|] eqn:Ha; [|apply nth_error_None in Ha; lia].
  unfold take. rewrite Ha. exists a, (swap_remove v i). split; [reflexivity|]. split; [reflexivity|].
  destruct (exists_last (l := v)) as (l & z & ->); [destruct v; cbn in *; [lia|discriminate]|].
  rewrite swap_remove_app. rewrite app_length in *. cbn [length] in *. replace (length l + 1 - 1) with (length l) by lia.
  assert (Hlen : length (firstn (length l) (update i z (l ++ [z]))) = length l).
  { rewrite firstn_length, update_length, app_length. cbn. lia. }
  split; [|split; [exact Hlen|]].
  - destruct (Nat.eq_dec i (length l)) as [->|Hne].
    + rewrite nth_error_app2, Nat.sub_diag in Ha by lia. injection Ha as <-.
      replace (length l) with (length l + 0) at 2 by lia. rewrite update_app_r. cbn [update].
      rewrite firstn_app, firstn_all, Nat.sub_diag, firstn_O, app_nil_r.
      apply Permutation_sym, Permutation_cons_append.
    + rewrite update_app_l by lia. rewrite firstn_app, update_length, Nat.sub_diag, firstn_O, app_nil_r.
      rewrite firstn_all2 by (rewrite update_length; lia).
      rewrite nth_error_app1 in Ha by lia.
      etransitivity; [apply Permutation_sym, Permutation_cons_append|]. apply update_perm, Ha.
  - intros j Hj. rewrite Hlen in Hj. rewrite nth_error_firstn. rewrite (proj2 (Nat.ltb_lt _ _) Hj).
    rewrite (nth_error_app2 l) by lia. rewrite Nat.sub_diag. cbn [nth_error].
    destruct (j =? i) eqn:Hji.
    + apply Nat.eqb_eq in Hji. subst j. apply update_nth_eq. rewrite app_length. cbn. lia.
    + apply Nat.eqb_neq in Hji. apply update_nth_neq. lia.
Qed.
