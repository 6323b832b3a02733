(** Specification of the key stream, independent of how Prg.v computes it. *)
From Verif Require Import Base Field Util Env Prg.

(** a 16-byte seed/key as the Rust type [u8; 16] provides it *)
Definition is_bytes (b : bytes) : Prop := Forall (fun x => (x < 256)%N) b.
Definition is_key (k : bytes) : Prop := length k = 16 /\ is_bytes k.

(** [key + i]: the 64-bit little-endian number in one half of the block plus i, wrapping; the upper
    half on x86_64, the lower half elsewhere. *)
Definition counter_block (E : env) (key : bytes) (i : nat) : bytes :=
  if x86 E
  then firstn 8 key ++ le_bytes 8 ((le_num (skipn 8 key) + N.of_nat i) mod 2 ^ 64)%N
  else le_bytes 8 ((le_num (firstn 8 key) + N.of_nat i) mod 2 ^ 64)%N ++ skipn 8 key.

(** block i of the stream: AES_0(key + i) xor (key + i) *)
Definition stream_block (E : env) (key : bytes) (i : nat) : bytes :=
  map (fun ab => N.lxor (fst ab) (snd ab)) (combine (aes0 E (counter_block E key i)) (counter_block E key i)).

(** byte [pos] of the stream, and the bytes from..from+n-1 *)
Definition stream_byte (E : env) (key : bytes) (pos : nat) : N :=
  nth (pos mod 16) (stream_block E key (pos / 16)) 0%N.
Definition stream_bytes (E : env) (key : bytes) (from n : nat) : bytes :=
  map (stream_byte E key) (seq from n).

(** the field element encoded little-endian by a block of bytes *)
Definition field_of_bytes (b : bytes) : fld := of_N (le_num b).

(** a client of the stream that reads [ns] bytes one after the other *)
Fixpoint reads (E : env) (s : stream) (ns : list nat) : outcome (stream * list bytes) :=
  match ns with
  | [] => Ret (s, [])
  | n :: ns' =>
      let! '(s1, b) := fill_bytes E s n in
      let! '(s2, bs) := reads E s1 ns' in
      Ret (s2, b :: bs)
  end.

(** Does a debug build panic on this sequence of reads?  [h] is the number of bytes the last refill
    produced, [p] how many of them were consumed.  A read of more than 64 bytes refills 128 bytes at
    a time, a smaller one 16 bytes at a time, and the latter refuses to run unless h = 16. *)
Fixpoint drains_then_small (h p : nat) (ns : list nat) : bool :=
  match ns with
  | [] => false
  | n :: ns' =>
      if n <=? h - p then drains_then_small h (p + n) ns'
      else if 64 <? n then drains_then_small 128 ((n - (h - p) - 1) mod 128 + 1) ns'
      else if h =? 16 then drains_then_small 16 ((n - (h - p) - 1) mod 16 + 1) ns'
      else true
  end.
