(** Model of PrgStream and PrgSeed::to_rng (/repo/src/prg.rs).  Nothing in the repository calls
    to_rng; the type is exported. *)
From Verif Require Import Base Util.

(** src/prg.rs:160-163  PrgStream: the state of ctr::Ctr128LE<Aes128> (crates ctr and cipher): the
    key, the next block number, and the bytes of the current block that are not used yet.  The crate
    panics when 2^128 blocks are used up; here the number wraps. *)
Record prg_stream := { ps_key : bytes; ps_ctr : N; ps_left : bytes }.

(** src/prg.rs:55-64  to_rng: the initial block number is the all-zero iv *)
Definition to_rng (seed : bytes) : prg_stream :=
  {| ps_key := seed; ps_ctr := le_num (repeat 0%N 16); ps_left := [] |}.

(** one byte of key stream; [aes key block] is Aes128::new(key).encrypt_block(block) *)
Definition ps_next (aes : bytes -> bytes -> bytes) (s : prg_stream) : prg_stream * N :=
  let '(l, c) := match ps_left s with
                 | [] => (aes (ps_key s) (le_bytes 16 (ps_ctr s)), ((ps_ctr s + 1) mod 2 ^ 128)%N)
                 | _ :: _ => (ps_left s, ps_ctr s)
                 end in
  ({| ps_key := ps_key s; ps_ctr := c; ps_left := tl l |}, hd 0%N l).

(** StreamCipher::apply_keystream (crate cipher): the key stream is xored into the buffer *)
Fixpoint apply_keystream (aes : bytes -> bytes -> bytes) (s : prg_stream) (dest : bytes)
  : prg_stream * bytes :=
  match dest with
  | [] => (s, [])
  | d :: dest' =>
      let '(s1, k) := ps_next aes s in
      let '(s2, out) := apply_keystream aes s1 dest' in
      (s2, N.lxor d k :: out)
  end.

(** src/prg.rs:174-194  fill_bytes (the printed lines are omitted) *)
Definition ps_fill (debug : bool) (aes : bytes -> bytes -> bytes) (s : prg_stream) (dest : bytes)
  : outcome (prg_stream * bytes) :=
  do! debug_assert debug (forallb (fun v => (v =? 0)%N) dest);
  Ret (apply_keystream aes s dest).

(** src/prg.rs:196-199  try_fill_bytes: Ok in every case *)
Definition ps_try_fill (debug : bool) (aes : bytes -> bytes -> bytes) (s : prg_stream) (dest : bytes)
  : outcome (prg_stream * bytes) := ps_fill debug aes s dest.

(** src/prg.rs:166-168  next_u32: rand_core::impls::next_u32_via_fill, 4 zero bytes, little-endian *)
Definition ps_next_u32 (debug : bool) (aes : bytes -> bytes -> bytes) (s : prg_stream)
  : outcome (prg_stream * N) :=
  let! '(s1, b) := ps_fill debug aes s (repeat 0%N 4) in Ret (s1, le_num b).

(** src/prg.rs:170-172  next_u64: rand_core::impls::next_u64_via_fill *)
Definition ps_next_u64 (debug : bool) (aes : bytes -> bytes -> bytes) (s : prg_stream)
  : outcome (prg_stream * N) :=
  let! '(s1, b) := ps_fill debug aes s (repeat 0%N 8) in Ret (s1, le_num b).
