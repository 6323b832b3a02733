(** Specification for C64: AES-128 in counter mode with a little-endian 128-bit counter from 0, and a
    program that uses a generator. *)
From Verif Require Import Base Util PrgStream.

(** byte i of the key stream *)
Definition ctr_byte (aes : bytes -> bytes -> bytes) (key : bytes) (i : nat) : N :=
  nth (i mod 16) (aes key (le_bytes 16 (N.of_nat (i / 16) mod 2 ^ 128)%N)) 0%N.
Definition ctr_bytes (aes : bytes -> bytes -> bytes) (key : bytes) (from n : nat) : bytes :=
  map (ctr_byte aes key) (seq from n).

(** AES-128 maps a 16-byte block to a 16-byte block *)
Definition aes_blocks (aes : bytes -> bytes -> bytes) (key : bytes) : Prop :=
  forall b, length b = 16 -> length (aes key b) = 16.

(** what a caller does with the generator: fill a buffer with given contents, by either method, or
    draw a number *)
Inductive draw := Fill (dest : bytes) | TryFill (dest : bytes) | U32 | U64.

(** the bytes a draw consumes, and the contents of the buffer handed over *)
Definition before (d : draw) : bytes :=
  match d with Fill b | TryFill b => b | U32 => repeat 0%N 4 | U64 => repeat 0%N 8 end.

(** what the caller gets *)
Inductive got := Bytes (b : bytes) | Number (n : N).

(** the result of a draw which finds the given key-stream bytes *)
Definition result_of (d : draw) (ks : bytes) : got :=
  match d with
  | Fill b | TryFill b => Bytes (map (fun p => N.lxor (fst p) (snd p)) (combine b ks))
  | U32 | U64 => Number (le_num ks)
  end.

(** the results of a list of draws, starting at byte [from] of the key stream *)
Fixpoint results (aes : bytes -> bytes -> bytes) (key : bytes) (from : nat) (ds : list draw) : list got :=
  match ds with
  | [] => []
  | d :: ds' =>
      let n := length (before d) in
      result_of d (ctr_bytes aes key from n) :: results aes key (from + n) ds'
  end.

(** the program *)
Definition draw1 (debug : bool) (aes : bytes -> bytes -> bytes) (s : prg_stream) (d : draw)
  : outcome (prg_stream * got) :=
  match d with
  | Fill b => let! '(s1, o) := ps_fill debug aes s b in Ret (s1, Bytes o)
  | TryFill b => let! '(s1, o) := ps_try_fill debug aes s b in Ret (s1, Bytes o)
  | U32 => let! '(s1, n) := ps_next_u32 debug aes s in Ret (s1, Number n)
  | U64 => let! '(s1, n) := ps_next_u64 debug aes s in Ret (s1, Number n)
  end.
Fixpoint draws (debug : bool) (aes : bytes -> bytes -> bytes) (s : prg_stream) (ds : list draw)
  : outcome (prg_stream * list got) :=
  match ds with
  | [] => Ret (s, [])
  | d :: ds' =>
      let! '(s1, g) := draw1 debug aes s d in
      let! '(s2, gs) := draws debug aes s1 ds' in
      Ret (s2, g :: gs)
  end.

(** a buffer of zeros *)
Definition blank (d : draw) : Prop := Forall (fun v => v = 0%N) (before d).
