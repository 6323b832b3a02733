(** Properties C12, C13, C49, C50 (free functions of src/lib.rs). *)
From Verif Require Import Base Field Util SpecUtil UtilFacts.
From Coq Require Import Permutation.

(** C12 *)
Theorem C12_bits : forall nbits x, nbits <= 32 ->
  exists l, u32_to_bits nbits x = Ret l /\ length l = nbits /\
    (forall i, i < nbits -> nth_error l i = Some (N.testbit x (N.of_nat i))) /\
    bits_value l = (x mod 2 ^ N.of_nat nbits)%N.
Proof. exact C12_lemma. Qed.
Print Assumptions C12_bits.
Theorem C12_panic : forall nbits x, 32 < nbits -> u32_to_bits nbits x = Panic PAssert.
Proof. exact C12_panic_lemma. Qed.
Print Assumptions C12_panic.
Example C12_example : u32_to_bits 3 14 = Ret [false; true; true].
Proof. reflexivity. Qed.

(** C13: ASCII strings survive the round trip *)
Theorem C13_string_round_trip : forall s, Forall (fun x => (x < 128)%N) s ->
  exists bits, string_to_bits s = Ret bits /\ length bits = 8 * length s /\ bits_to_string bits = Ret s.
Proof. exact C13_string_lemma. Qed.
Print Assumptions C13_string_round_trip.
(** C13: so do bit vectors all of whose bytes have a clear top bit; any other one panics *)
Theorem C13_bits_round_trip : forall bits, length bits mod 8 = 0 ->
  if forallb (fun i => negb (nth (8 * i + 7) bits false)) (seq 0 (length bits / 8))
  then exists s, bits_to_string bits = Ret s /\ string_to_bits s = Ret bits
  else bits_to_string bits = Panic PUnwrap.
Proof. exact C13_bits_lemma. Qed.
Print Assumptions C13_bits_round_trip.
Theorem C13_non_ascii_panics : forall s, Forall (fun x => (x < 256)%N) s -> Exists (fun x => (128 <= x)%N) s ->
  exists bits, string_to_bits s = Ret bits /\ bits_to_string bits = Panic PUnwrap.
Proof. exact C13_non_ascii_lemma. Qed.
Print Assumptions C13_non_ascii_panics.
Theorem C13_bad_length_panics : forall bits, length bits mod 8 <> 0 -> bits_to_string bits = Panic PAssert.
Proof. exact C13_length_lemma. Qed.
Print Assumptions C13_bad_length_panics.
(** "ab" survives, "é" (c3 a9) does not *)
Example C13_example :
  bind (string_to_bits [97; 98]%N) bits_to_string = Ret [97; 98]%N /\
  bind (string_to_bits [195; 169]%N) bits_to_string = Panic PUnwrap.
Proof. split; reflexivity. Qed.

(** C49 *)
Theorem C49_xor : forall a b c i,
  nth_error (xor_vec a b) i =
    match nth_error a i, nth_error b i with Some x, Some y => Some (N.lxor x y) | _, _ => None end /\
  nth_error (xor_three_vecs a b c) i =
    match nth_error a i, nth_error b i, nth_error c i with
    | Some x, Some y, Some z => Some (N.lxor (N.lxor x y) z) | _, _, _ => None end /\
  nth_error (xor_in_place a b) i =
    match nth_error a i, nth_error b i with Some x, Some y => Some (N.lxor x y) | o, _ => o end /\
  xor_in_place (xor_in_place a b) b = a.
Proof. exact C49_xor_lemma. Qed.
Print Assumptions C49_xor.
Theorem C49_vec : forall a b i,
  nth_error (vec_add a b) i =
    match nth_error a i, nth_error b i with Some x, Some y => Some (fadd x y) | o, _ => o end /\
  nth_error (vec_sub a b) i =
    match nth_error a i, nth_error b i with Some x, Some y => Some (fsub x y) | o, _ => o end /\
  nth_error (vec_neg a) i = option_map fneg (nth_error a i) /\
  vec_sub (vec_add a b) b = a /\ vec_neg (vec_neg a) = a.
Proof. exact C49_vec_lemma. Qed.
Print Assumptions C49_vec.
Example C49_example : xor_vec [1; 2; 3]%N [3; 2]%N = [2; 0]%N /\ xor_in_place [1; 2; 3]%N [3; 2]%N = [2; 0; 3]%N.
Proof. split; reflexivity. Qed.

(** C50 *)
Theorem C50_out_of_range : forall (A : Type) (v : list A) i, length v <= i -> take v i = (None, v).
Proof. exact @C50_none_lemma. Qed.
Print Assumptions C50_out_of_range.
Theorem C50_in_range : forall (A : Type) (v : list A) i, i < length v ->
  exists a v', take v i = (Some a, v') /\ nth_error v i = Some a /\ Permutation v (a :: v') /\
    length v' = length v - 1 /\
    forall j, j < length v' -> nth_error v' j = if j =? i then nth_error v (length v - 1) else nth_error v j.
Proof. exact @C50_some_lemma. Qed.
Print Assumptions C50_in_range.
Example C50_example : take [10; 11; 12; 13] 1 = (Some 11, [10; 13; 12]).
Proof. reflexivity. Qed.
