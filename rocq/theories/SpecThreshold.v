(** Specification vocabulary for the threshold. *)
From Coq Require Import ZArith.
From Coq Require Import Floats.SpecFloat.
Local Open Scope Z_scope.

(** the f64 with the value m / 2^k *)
Definition fraction (m : positive) (k : Z) : spec_float := S754_finite false m (- k).
(** the fraction m / 2^k of n items is at most c; at least c; more than c *)
Definition share_le (m : positive) (k n c : Z) : Prop := Zpos m * n <= c * 2 ^ k.
Definition share_ge (m : positive) (k n c : Z) : Prop := c * 2 ^ k <= Zpos m * n.
Definition share_gt (m : positive) (k n c : Z) : Prop := c * 2 ^ k < Zpos m * n.
(** ... at most c and a half *)
Definition share_le_half (m : positive) (k n c : Z) : Prop := 2 * (Zpos m * n) <= (2 * c + 1) * 2 ^ k.
(** the share is not astronomically large, and the f64 is below 2^52 (a threshold is at most 1) *)
Definition sensible (m : positive) (k n : Z) : Prop := 1 <= k /\ 0 <= n < 2 ^ 53 /\ Zpos m * n < 2 ^ 51 * 2 ^ k.

(** binary64 numbers: the nearest to 0.29, to 0.3, and 0.5 *)
Definition f64_29 : spec_float := fraction 5224175567749775 54.
Definition f64_30 : spec_float := fraction 5404319552844595 54.
Definition f64_50 : spec_float := fraction 4503599627370496 53.
