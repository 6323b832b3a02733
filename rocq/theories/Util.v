(** Free functions of /repo/src/lib.rs. *)
From Verif Require Import Base Field.

(** src/lib.rs:22  pub const HASH_SIZE: usize = 16 *)
Definition HASH_SIZE : nat := 16.

(** src/lib.rs:141-150  u32_to_bits.  [input] is a u32, [nbits] a u8. *)
Definition u32_to_bits (nbits : nat) (input : N) : outcome (list bool) :=
  do! assert_ (nbits <=? 32);
  Ret (map (fun i => negb (N.land input (N.shiftl 1 (N.of_nat i)) =? 0)%N) (seq 0 nbits)).

(** src/lib.rs:152-160  string_to_bits.  A &str is its UTF-8 byte sequence. *)
Definition string_to_bits (s : bytes) : outcome (list bool) :=
  let! bs := mapM (fun byte => u32_to_bits 8 byte) s in Ret (concat bs).

(** src/lib.rs:162-171  bits_to_u8 *)
Definition bits_to_u8 (bits : list bool) : outcome N :=
  do! assert_ (length bits =? 8);
  foldM (fun out i =>
           let! b := index bits i in
           Ret (N.lor out (N.shiftl (if b then 1 else 0) (N.of_nat i))))%N
        0%N (seq 0 8).

(** std::str::from_utf8(&[b]): a single byte is valid UTF-8 iff it is ASCII. *)
Definition from_utf8_single (b : N) : option bytes := if (b <? 128)%N then Some [b] else None.

(** src/lib.rs:173-185  bits_to_string *)
Definition bits_to_string (bits : list bool) : outcome bytes :=
  do! assert_ (length bits mod 8 =? 0);
  foldM (fun out b =>
           let byte := slice (8 * b) (8 * (b + 1)) bits in
           let! u := bits_to_u8 byte in
           let! s := unwrap (from_utf8_single u) in
           Ret (out ++ s))
        [] (seq 0 (length bits / 8)).

(** src/lib.rs:187-198  bits_to_bitstring ('0' = 48, '1' = 49) *)
Definition bit_char (b : bool) : N := if b then 49%N else 48%N.
Definition bits_to_bitstring (bits : list bool) : bytes := map bit_char bits.

(** src/lib.rs:200-202  xor_vec: zip stops at the shorter input *)
Fixpoint xor_vec (v1 v2 : bytes) : bytes :=
  match v1, v2 with
  | x1 :: v1', x2 :: v2' => N.lxor x1 x2 :: xor_vec v1' v2'
  | _, _ => []
  end.

(** src/lib.rs:204-211  vec_add: destination keeps its length *)
Fixpoint vec_add (v1 v2 : list fld) : list fld :=
  match v1, v2 with
  | x1 :: v1', x2 :: v2' => fadd x1 x2 :: vec_add v1' v2'
  | _, _ => v1
  end.

(** src/lib.rs:213-220  vec_sub *)
Fixpoint vec_sub (v1 v2 : list fld) : list fld :=
  match v1, v2 with
  | x1 :: v1', x2 :: v2' => fsub x1 x2 :: vec_sub v1' v2'
  | _, _ => v1
  end.

(** src/lib.rs:222-227  vec_neg *)
Definition vec_neg (v1 : list fld) : list fld := map fneg v1.

(** src/lib.rs:229-233  xor_in_place: destination keeps its length *)
Fixpoint xor_in_place (v1 v2 : bytes) : bytes :=
  match v1, v2 with
  | x1 :: v1', x2 :: v2' => N.lxor x1 x2 :: xor_in_place v1' v2'
  | _, _ => v1
  end.

(** src/lib.rs:235-241  xor_three_vecs *)
Fixpoint xor_three_vecs (v1 v2 v3 : bytes) : bytes :=
  match v1, v2, v3 with
  | x1 :: v1', x2 :: v2', x3 :: v3' => N.lxor (N.lxor x1 x2) x3 :: xor_three_vecs v1' v2' v3'
  | _, _, _ => []
  end.

(** src/lib.rs:243-249  take, with Vec::swap_remove: the last element replaces the removed one. *)
Definition swap_remove {A} (l : list A) (i : nat) : list A :=
  match rev l with
  | [] => []
  | last :: _ => firstn (length l - 1) (update i last l)
  end.
Definition take {A} (vec : list A) (i : nat) : option A * list A :=
  match nth_error vec i with
  | None => (None, vec)
  | Some a => (Some a, swap_remove vec i)
  end.

(** Histogram::encode_measurement of prio (called through src/lib.rs:52-57): one-hot vector of
    length [len]; an out-of-range bucket is an error.  External crate. *)
Definition one_hot (len m : nat) : list fld :=
  map (fun i => if i =? m then fone else fzero) (seq 0 len).
Definition encode_measurement (len m : nat) : option (list fld) :=
  if m <? len then Some (one_hot len m) else None.
