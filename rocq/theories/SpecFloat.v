(** What (n as f32).log2().ceil() is, when the conversion and log2 are correctly rounded
    (src/collect.rs:485).  Ties may be broken either way; exponents are unbounded, which makes no
    difference for the numbers at hand. *)
From Coq Require Import Reals ZArith.
Open Scope R_scope.

(** numbers with a 24-bit significand *)
Definition is_f32 (x : R) : Prop := exists m e : Z, (Z.abs m < 2 ^ 24)%Z /\ x = IZR m * powerRZ 2 e.
(** y is x rounded to nearest *)
Definition rounds_to (x y : R) : Prop := is_f32 y /\ forall z, is_f32 z -> Rabs (x - y) <= Rabs (x - z).
Definition log2 (x : R) : R := ln x / ln 2.
(** k is a possible value of (n as f32).log2().ceil() *)
Definition f32_clog2 (n k : nat) : Prop :=
  exists a y, rounds_to (INR n) a /\ rounds_to (log2 a) y /\ INR k - 1 < y <= INR k.
