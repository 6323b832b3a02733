(** Model of /repo/src/prg.rs. *)
From Verif Require Import Base Field Util Env.

(** src/prg.rs:36 *)
Definition AES_BLOCK_SIZE : nat := 16.

(** src/prg.rs:38-45  FixedKeyPrgStream.  [Counter] is the 16 bytes that load/store (321-348) move in
    and out of the register.  The field [count] (statistics, never read) is omitted; [aes] is the
    fixed zero key, i.e. [aes0 E]. *)
Record stream := { ctr : bytes; buf : bytes; have : nat; buf_ptr : nat }.

(** src/prg.rs:213-225  FixedKeyPrgStream::new *)
Definition stream_new : stream :=
  {| ctr := repeat 0%N 16; buf := repeat 0%N (16 * 8); have := 16; buf_ptr := 16 |}.

(** src/prg.rs:227-231  set_key *)
Definition set_key (s : stream) (key : bytes) : stream :=
  {| ctr := key; buf := buf s; buf_ptr := AES_BLOCK_SIZE; have := AES_BLOCK_SIZE |}.

(** src/prg.rs:304-306  x86_64: _mm_add_epi64(v, _mm_set_epi64x(1, 0)) adds 1 to the high 64-bit
    lane, i.e. to the little-endian number in bytes 8..16, wrapping. *)
Definition inc_x86 (c : bytes) : bytes :=
  firstn 8 c ++ le_bytes 8 ((le_num (skipn 8 c) + 1) mod 2 ^ 64)%N.

(** src/prg.rs:307-317  portable version: add-with-carry over the first 8 bytes. *)
Fixpoint add_carry (carry : bool) (l : bytes) : bytes :=
  match l with
  | [] => []
  | b :: l' =>
      let s := (b + (if carry then 1 else 0))%N in
      (s mod 256)%N :: add_carry (256 <=? s)%N l'
  end.
Definition inc_portable (c : bytes) : bytes := add_carry true (firstn 8 c) ++ skipn 8 c.

(** src/prg.rs:302-319  inc_be *)
Definition inc_be (E : env) (c : bytes) : bytes := if x86 E then inc_x86 c else inc_portable c.

(** src/prg.rs:233-238  skip_block *)
Definition skip_block (E : env) (s : stream) : outcome stream :=
  do! debug_assert (dbg E) (have s mod AES_BLOCK_SIZE =? 0);
  do! debug_assert (dbg E) (buf_ptr s =? AES_BLOCK_SIZE);
  Ret {| ctr := inc_be E (ctr s); buf := buf s; have := have s; buf_ptr := buf_ptr s |}.

(** src/prg.rs:240-262  refill: the counter is stored in buf[0..16], encrypted there, and the whole
    buffer is xored with its copy from before the encryption. *)
Definition refill (E : env) (s : stream) : outcome stream :=
  do! debug_assert (dbg E) (buf_ptr s =? AES_BLOCK_SIZE);
  let buf1 := ctr s ++ skipn AES_BLOCK_SIZE (buf s) in
  let enc := aes0 E (firstn AES_BLOCK_SIZE buf1) ++ skipn AES_BLOCK_SIZE buf1 in
  Ret {| have := AES_BLOCK_SIZE; buf_ptr := 0;
         buf := xor_in_place enc buf1;
         ctr := inc_be E (ctr s) |}.

(** src/prg.rs:264-298  refill8: eight consecutive counters, each encrypted and xored with itself. *)
Fixpoint ctr_iter (E : env) (n : nat) (c : bytes) : bytes :=
  match n with O => c | S n' => inc_be E (ctr_iter E n' c) end.
Definition refill8 (E : env) (s : stream) : stream :=
  let cnts := map (fun i => ctr_iter E i (ctr s)) (seq 0 8) in
  let block8 := map (fun c => xor_in_place (aes0 E c) c) cnts in
  {| have := 8 * AES_BLOCK_SIZE; buf_ptr := 0;
     buf := concat block8;
     ctr := ctr_iter E 8 (ctr s) |}.

(** src/prg.rs:360-379  fill_bytes on a destination of [n] bytes; returns the bytes written.
    The while loop runs on fuel; [fill_bytes] supplies enough (FuelNotReached lemma in PrgFacts). *)
Fixpoint fill_loop (fuel : nat) (E : env) (s : stream) (n dest_ptr : nat) (dest : bytes)
  : outcome (stream * bytes) :=
  if dest_ptr <? n then
    match fuel with
    | O => Panic PFuel
    | S fuel' =>
        let! s1 := (if buf_ptr s =? have s
                    then (if 4 * AES_BLOCK_SIZE <? n then Ret (refill8 E s) else refill E s)
                    else Ret s) in
        let to_copy := Nat.min (have s1 - buf_ptr s1) (n - dest_ptr) in
        let s2 := {| ctr := ctr s1; buf := buf s1; have := have s1; buf_ptr := buf_ptr s1 + to_copy |} in
        fill_loop fuel' E s2 n (dest_ptr + to_copy)
                  (dest ++ slice (buf_ptr s1) (buf_ptr s1 + to_copy) (buf s1))
    end
  else Ret (s, dest).
Definition fill_bytes (E : env) (s : stream) (n : nat) : outcome (stream * bytes) :=
  fill_loop n E s n 0 [].

(** src/prg.rs:356-358 with rand_core::impls::next_u64_via_fill: 8 bytes, little-endian *)
Definition next_u64 (E : env) (s : stream) : outcome (stream * N) :=
  let! '(s', b) := fill_bytes E s 8 in Ret (s', le_num b).

(** src/lib.rs:133-139  Field128::from_rng *)
Definition from_rng (E : env) (s : stream) : outcome (stream * fld) :=
  let! '(s1, low_bits) := next_u64 E s in
  let! '(s2, high_bits) := next_u64 E s1 in
  Ret (s2, of_N (N.lor (N.shiftl high_bits 64) low_bits)).

(** src/prg.rs:202-205 *)
Record prg_output := { po_bits : bool * bool; po_seeds : bytes * bytes }.

(** key_short[0] &= 0xFC, src/prg.rs:68-71 *)
Definition mask_key (key : bytes) : bytes :=
  match key with [] => [] | b :: k => N.land b 252 :: k end.
Definition byte0 (key : bytes) : N := hd 0%N key.

(** src/prg.rs:66-95  expand_dir, acting on the thread-local stream [s].  Note that the control bits
    are read from key_short, i.e. after the two low bits were cleared. *)
Definition expand_dir_on (E : env) (s : stream) (key : bytes) (left right : bool)
  : outcome (stream * prg_output) :=
  let key_short := mask_key key in
  let s0 := set_key s key_short in
  let bits := ((N.land (byte0 key_short) 1 =? 0)%N, (N.land (byte0 key_short) 2 =? 0)%N) in
  let! '(s1, l) := (if left then fill_bytes E s0 16
                    else let! s' := skip_block E s0 in Ret (s', repeat 0%N 16)) in
  let! '(s2, r) := (if right then fill_bytes E s1 16
                    else let! s' := skip_block E s1 in Ret (s', repeat 0%N 16)) in
  Ret (s2, {| po_bits := bits; po_seeds := (l, r) |}).

(** loop of src/prg.rs:116-118: [n] field elements drawn one after the other *)
Fixpoint draw_fields (E : env) (s : stream) (n : nat) : outcome (stream * list fld) :=
  match n with
  | O => Ret (s, [])
  | S n' => let! '(s1, x) := from_rng E s in
            let! '(s2, xs) := draw_fields E s1 n' in
            Ret (s2, x :: xs)
  end.

(** src/prg.rs:101-123  convert (ConvertOutput 207-210 as a pair seed, word) *)
Definition convert_on (E : env) (s : stream) (key : bytes) (input_len : nat)
  : outcome (stream * (bytes * list fld)) :=
  let s0 := set_key s key in
  let! '(s1, seed) := fill_bytes E s0 16 in
  let! '(s2, word) := draw_fields E s1 (input_len + 1) in
  Ret (s2, (seed, word)).

(** The rest of the model does not thread the thread-local stream: it starts each call from a fresh
    one.  Theorem C06 (PropPrg.v) justifies this: the results do not depend on the stream. *)
Definition expand_dir (E : env) (key : bytes) (left right : bool) : outcome prg_output :=
  let! '(_, o) := expand_dir_on E stream_new key left right in Ret o.
(** src/prg.rs:97-99 *)
Definition expand (E : env) (key : bytes) : outcome prg_output := expand_dir E key true true.
Definition convert (E : env) (key : bytes) (input_len : nat) : outcome (bytes * list fld) :=
  let! '(_, o) := convert_on E stream_new key input_len in Ret o.

(** src/prg.rs:138-150  BitXor for &PrgSeed: out starts as 16 zero bytes *)
Definition seed_xor (a b : bytes) : bytes := xor_vec a b.
