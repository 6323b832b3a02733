(** Model of the two places where /repo/src computes with f64: the conversion of the threshold
    (bin/driver.rs:394-400, 473-479) and the chunk length of plain metrics (lib.rs:24-32).
    f64 is IEEE binary64 as specified in Coq's standard library (Coq.Floats.SpecFloat; no axiom):
    53 bits of precision, largest exponent 1024, rounding to nearest, ties to even. *)
From Coq Require Import ZArith.
From Coq Require Import Floats.SpecFloat.
Local Open Scope Z_scope.

(** usize as f64: rounded to nearest *)
Definition f64_of_usize (n : Z) : spec_float := binary_normalize 53 1024 n 0 false.
(** f64 * f64, f64::sqrt *)
Definition f64_mul (x y : spec_float) : spec_float := SFmul 53 1024 x y.
Definition f64_sqrt (x : spec_float) : spec_float := SFsqrt 53 1024 x.
(** f64 as u64 (and as usize): towards zero, saturating; NaN gives 0 *)
Definition f64_as_u64 (x : spec_float) : Z :=
  match x with
  | S754_finite false m e => Z.min (2 ^ 64 - 1) (if e <? 0 then Zpos m / 2 ^ (- e) else Zpos m * 2 ^ e)
  | S754_infinity false => 2 ^ 64 - 1
  | _ => 0
  end.

(** driver.rs:395,474  (threshold * (num_clients as f64)) as u64; this is [cfg_thr] of Driver.v *)
Definition f64_threshold (threshold : spec_float) (num_clients : Z) : Z :=
  f64_as_u64 (f64_mul threshold (f64_of_usize num_clients)).

(** lib.rs:30  (num_buckets as f64).sqrt() as usize *)
Definition plain_chunk_length (num_buckets : Z) : Z := f64_as_u64 (f64_sqrt (f64_of_usize num_buckets)).
