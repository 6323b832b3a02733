(** Properties C06, C07, C08, C11, C14 (src/prg.rs, src/lib.rs:133-139). *)
From Verif Require Import Base Field Util Env Prg SpecPrg PrgSpecFacts PrgSpecFacts2 RefEnv.

(** C06: the results depend on the seed and the arguments only, never on the thread-local stream
    (whatever its counter, buffer and pointers), and no call panics, in either build profile. *)
Theorem C06_expand_dir : forall E s1 s2 key l r,
  env_ok E -> is_key key -> length (buf s1) = 128 -> length (buf s2) = 128 ->
  exists s1' s2' o,
    expand_dir_on E s1 key l r = Ret (s1', o) /\ expand_dir_on E s2 key l r = Ret (s2', o) /\
    length (buf s1') = 128 /\ length (buf s2') = 128 /\ expand_dir E key l r = Ret o /\
    po_seeds o = (if l then stream_bytes E (mask_key key) 0 16 else repeat 0%N 16,
                  if r then stream_bytes E (mask_key key) 16 16 else repeat 0%N 16).
Proof. exact C06_expand_dir_lemma. Qed.
Print Assumptions C06_expand_dir.

Theorem C06_convert : forall E s1 s2 key len,
  env_ok E -> is_key key -> length (buf s1) = 128 -> length (buf s2) = 128 ->
  exists s1' s2' seed word,
    convert_on E s1 key len = Ret (s1', (seed, word)) /\ convert_on E s2 key len = Ret (s2', (seed, word)) /\
    length (buf s1') = 128 /\ length (buf s2') = 128 /\ convert E key len = Ret (seed, word) /\
    seed = stream_bytes E key 0 16 /\ length word = len + 1 /\
    forall i x, nth_error word i = Some x -> x = field_of_bytes (stream_bytes E key (16 + 16 * i) 16).
Proof. exact C06_convert_lemma. Qed.
Print Assumptions C06_convert.

(** hypotheses satisfiable, and the two streams really differ: one has just served a 70-byte read *)
Example C06_example :
  let E := ref_env true true in
  let k := map N.of_nat (seq 7 16) in
  match fill_bytes E (set_key stream_new k) 70 with
  | Ret (s1, _) => is_key k /\ length (buf s1) = 128 /\ buf_ptr s1 = 70 /\ have s1 = 128
  | Panic _ => False
  end.
Proof. exact C06_example_proof. Qed.

(** C07 *)
Theorem C07_one_sided : forall E key d, env_ok E -> is_key key ->
  exists one full, expand_dir E key (negb d) d = Ret one /\ expand E key = Ret full /\
    (if d then snd (po_seeds one) = snd (po_seeds full) /\ snd (po_bits one) = snd (po_bits full)
     else fst (po_seeds one) = fst (po_seeds full) /\ fst (po_bits one) = fst (po_bits full)).
Proof. exact C07_lemma. Qed.
Print Assumptions C07_one_sided.

(** the other side is not computed: it is all-zero there and (here) non-zero in the full expansion *)
Example C07_example :
  let E := ref_env true true in
  let k := map N.of_nat (seq 7 16) in
  match expand_dir E k false true, expand E k with
  | Ret one, Ret full => fst (po_seeds one) = repeat 0%N 16 /\ fst (po_seeds full) <> repeat 0%N 16 /\
                         snd (po_seeds one) = snd (po_seeds full)
  | _, _ => False
  end.
Proof. exact C07_example_proof. Qed.

(** C08: without debug assertions, any sequence of reads *)
Theorem C08_release : forall E k s ns,
  env_ok E -> is_key k -> length (buf s) = 128 -> dbg E = false ->
  exists s' out, reads E (set_key s k) ns = Ret (s', out) /\
    map (@length N) out = ns /\ concat out = stream_bytes E k 0 (list_sum ns).
Proof. exact C08_release_lemma. Qed.
Print Assumptions C08_release.

(** C08: in either profile, reads of at most 64 bytes *)
Theorem C08_small_reads : forall E k s ns,
  env_ok E -> is_key k -> length (buf s) = 128 -> Forall (fun n => n <= 64) ns ->
  exists s' out, reads E (set_key s k) ns = Ret (s', out) /\
    map (@length N) out = ns /\ concat out = stream_bytes E k 0 (list_sum ns).
Proof. exact C08_small_lemma. Qed.
Print Assumptions C08_small_reads.

(** C08: in debug builds a small read after a large one that drained the 128-byte buffer panics *)
Theorem C08_debug_panic : forall E k s n m,
  dbg E = true -> 64 < n -> n mod 128 = 0 -> 0 < m <= 64 ->
  reads E (set_key s k) [n; m] = Panic PDebugAssert.
Proof. exact C08_panic_lemma. Qed.
Print Assumptions C08_debug_panic.

(** Whether a sequence of reads makes a debug build panic is decided by sizes alone. *)
Theorem C08_debug_exact : forall E k s ns,
  env_ok E -> is_key k -> length (buf s) = 128 -> dbg E = true ->
  if drains_then_small 16 16 ns
  then reads E (set_key s k) ns = Panic PDebugAssert
  else exists s' out, reads E (set_key s k) ns = Ret (s', out) /\
         map (@length N) out = ns /\ concat out = stream_bytes E k 0 (list_sum ns).
Proof. exact C08_debug_exact_lemma. Qed.
Print Assumptions C08_debug_exact.

Example C08_example :
  let k := map N.of_nat (seq 7 16) in
  match reads (ref_env false true) (set_key stream_new k) [3; 70; 0; 200; 64],
        reads (ref_env false true) (set_key stream_new k) [337] with
  | Ret (_, o), Ret (_, [o']) => concat o = o'
  | _, _ => False
  end /\ is_ret (reads (ref_env true true) (set_key stream_new k) [128; 1]) = false
      /\ is_ret (reads (ref_env true true) (set_key stream_new k) [64; 1; 70; 16]) = true.
Proof. exact C08_example_proof. Qed.

(** C11 (violated): on every key the two counter back-ends feed different blocks to AES at every
    position but 0; with the real AES the expansions differ. *)
Theorem C11_counters_differ : forall E E' k i,
  x86 E = true -> x86 E' = false -> is_key k -> 0 < i -> (N.of_nat i < 2 ^ 64)%N ->
  counter_block E k i <> counter_block E' k i.
Proof. exact C11_counter_lemma. Qed.
Print Assumptions C11_counters_differ.

Theorem C11_first_block_agrees : forall E E' k,
  aes0 E = aes0 E' -> is_key k -> stream_block E k 0 = stream_block E' k 0.
Proof. exact C11_block0_lemma. Qed.
Print Assumptions C11_first_block_agrees.

Theorem C11_portable_refuted : exists debug key,
  is_key key /\ expand (ref_env debug true) key <> expand (ref_env debug false) key /\
  is_ret (expand (ref_env debug true) key) = true /\ is_ret (expand (ref_env debug false) key) = true.
Proof. exact C11_refuted_lemma. Qed.
Print Assumptions C11_portable_refuted.

(** C14 *)
Theorem C14_from_rng : forall E k s pre post,
  env_ok E -> is_key k -> length (buf s) = 128 ->
  Forall (fun n => n <= 64) pre -> Forall (fun n => n <= 64) post ->
  exists s1 o1 s2 x s3 o3,
    reads E (set_key s k) pre = Ret (s1, o1) /\ from_rng E s1 = Ret (s2, x) /\ reads E s2 post = Ret (s3, o3) /\
    fval x = (Z.of_N (le_num (stream_bytes E k (list_sum pre) 16)) mod P)%Z /\
    map (@length N) o3 = post /\ concat o3 = stream_bytes E k (list_sum pre + 16) (list_sum post).
Proof. exact C14_from_rng_lemma. Qed.
Print Assumptions C14_from_rng.

Theorem C14_encoding : forall a b,
  length (get_encoded a) = 16 /\ le_num (get_encoded a) = Z.to_N (fval a) /\
  (get_encoded a = get_encoded b -> a = b).
Proof. exact C14_encoding_lemma. Qed.
Print Assumptions C14_encoding.

Example C14_example : get_encoded (of_Z (P + 258)) = [2; 1; 0; 0; 0; 0; 0; 0; 0; 0; 0; 0; 0; 0; 0; 0]%N.
Proof. exact C14_example_proof. Qed.
