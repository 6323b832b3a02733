(** prio::flp for Histogram(len, c): the type behind Mastic::prove, query and decide (src/lib.rs:63-98,
    115-131) with chunk length c = 2, and the type behind Prio3 in plain metrics (src/bin/server.rs:236-237)
    with c the square root of len.  The crate (prio 0.15) is not in /repo: this file follows the public
    description of the proof system (draft-irtf-cfrg-vdaf, FlpGeneric and the Histogram circuit).
    Polynomials are lists of coefficients, lowest first.  The discrete Fourier transform is its defining
    formula, not the fast algorithm; the size limit of the crate's transform is not modelled. *)
From Verif Require Import Base Field Util Env.

(** Field128::pow *)
Fixpoint fpow (x : fld) (n : nat) : fld := match n with O => fone | S n' => fmul x (fpow x n') end.
Fixpoint fpow_pos (x : fld) (n : positive) : fld :=
  match n with
  | xH => x
  | xO n' => let y := fpow_pos x n' in fmul y y
  | xI n' => let y := fpow_pos x n' in fmul x (fmul y y)
  end.
(** Field128::inv: the power p - 2 *)
Definition finv (x : fld) : fld := fpow_pos x (Z.to_pos (P - 2)).

(** Field128::generator: 7^((p-1)/2^66), of order 2^66 *)
Definition generator : fld := of_Z 145091266659756586618791329697897684742.
(** x^(2^n) *)
Fixpoint squared (n : nat) (x : fld) : fld := match n with O => x | S n' => squared n' (fmul x x) end.
(** Field128::root(l): a root of unity of order 2^l *)
Definition root (l : nat) : fld := squared (66 - l) generator.

(** polynomial::poly_eval *)
Fixpoint poly_eval (p : list fld) (x : fld) : fld :=
  match p with [] => fzero | c :: p' => fadd c (fmul x (poly_eval p' x)) end.
Fixpoint poly_add (a b : list fld) : list fld :=
  match a, b with
  | [], _ => b
  | _, [] => a
  | x :: a', y :: b' => fadd x y :: poly_add a' b'
  end.
(** polynomial::poly_mul *)
Fixpoint poly_mul (a b : list fld) : list fld :=
  match a with [] => [] | x :: a' => poly_add (map (fmul x) b) (fzero :: poly_mul a' b) end.

(** fft::discrete_fourier_transform, of size 2^l, given the root; the input is padded with zeros *)
Definition dft_with (w : fld) (l : nat) (v : list fld) : list fld :=
  map (fun k => poly_eval v (fpow w k)) (seq 0 (2 ^ l)).
Definition dft (l : nat) (v : list fld) : list fld := dft_with (root l) l v.
(** fft::discrete_fourier_transform_inv_finish: scale by s = 1/2^l, and reverse all entries but the first *)
Definition dft_inv_finish (s : fld) (l : nat) (v : list fld) : list fld :=
  map (fun j => fmul s (nth ((2 ^ l - j) mod 2 ^ l) v fzero)) (seq 0 (2 ^ l)).
(** the polynomial with the values v at the powers of the root *)
Definition interpolate (l : nat) (v : list fld) : list fld := dft_inv_finish (finv (of_nat (2 ^ l))) l (dft l v).

(** gadgets::ParallelSum<Mul>::call: the sum of the products of consecutive pairs *)
Fixpoint par_sum (inp : list fld) : fld :=
  match inp with a :: b :: rest => fadd (fmul a b) (par_sum rest) | _ => fzero end.
(** ... ::call_poly: the same on polynomials; n is the length of the output buffer *)
Fixpoint par_poly (n : nat) (inp : list (list fld)) : list fld :=
  match inp with a :: b :: rest => poly_add (poly_mul a b) (par_poly n rest) | _ => repeat fzero n end.

(** the number of input wires of the gadget *)
Definition arity (c : nat) : nat := 2 * c.
(** Histogram::new: the number of gadget calls *)
Definition ncalls (c len : nat) : nat := (len + c - 1) / c.
(** flp::wire_poly_len: the next power of two, given by its logarithm *)
Definition wire_log (c len : nat) : nat := Nat.log2_up (1 + ncalls c len).
(** flp::gadget_poly_len, for a gadget of degree 2 *)
Definition gadget_poly_len (c len : nat) : nat := 2 * (2 ^ wire_log c len - 1) + 1.
Definition proof_len (c len : nat) : nat := arity c + gadget_poly_len c len.
Definition verifier_len (c : nat) : nat := 1 + arity c + 1.

(** types::parallel_sum_range_checks: the inputs of the gadget calls.  The last chunk is padded with
    zeros. *)
Definition call_inputs (c len : nat) (input : list fld) (jr sinv : fld) : list (list fld) :=
  map (fun k => flat_map (fun j => let x := nth (k * c + j) input fzero in
                                   [fmul (fpow jr (k * c + j + 1)) x; fsub x sinv]) (seq 0 c))
    (seq 0 (ncalls c len)).
Definition sum_f (l : list fld) : fld := fold_right fadd fzero l.
(** Histogram::valid, given the outputs of the gadget calls *)
Definition valid (outs input jr : list fld) (sinv : fld) : fld :=
  let j1 := nth 1 jr fzero in
  fadd (fmul j1 (sum_f outs)) (fmul (fmul j1 j1) (fsub (sum_f input) sinv)).

(** the values of wire i: a random one, then one per call *)
Definition wire_values (seeds : list fld) (calls : list (list fld)) (i : nat) : list fld :=
  nth i seeds fzero :: map (fun c => nth i c fzero) calls.
(** the polynomials of the wires: [interpolate], with the root and the scaling factor computed once *)
Definition wire_polys (c len : nat) (seeds : list fld) (calls : list (list fld)) : list (list fld) :=
  let l := wire_log c len in
  let w := root l in
  let s := finv (of_nat (2 ^ l)) in
  map (fun i => dft_inv_finish s l (dft_with w l (wire_values seeds calls i))) (seq 0 (arity c)).

(** Type::prove *)
Definition hist_prove (c len : nat) (input prove_rand jr : list fld) : option (list fld) :=
  if (length input =? len) && (length prove_rand =? arity c) && (length jr =? 2) then
    let calls := call_inputs c len input (nth 0 jr fzero) (finv (of_nat 1)) in
    Some (prove_rand ++ par_poly (gadget_poly_len c len) (wire_polys c len prove_rand calls))
  else None.

(** QueryShimGadget: the outputs of the gadget calls are read off the transform of the gadget polynomial *)
Definition query_outs (c len : nat) (p : list fld) : list fld :=
  let l' := Nat.log2_up (gadget_poly_len c len) in
  let p_vals := dft l' p in
  let step := 2 ^ (l' - wire_log c len) in
  map (fun k => nth ((k + 1) * step) p_vals fzero) (seq 0 (ncalls c len)).
(** Type::query; an error if the query randomness is a point the wires were interpolated at *)
Definition hist_query (c len : nat) (input proof qr jr : list fld) (num_shares : nat) : option (list fld) :=
  if (length input =? len) && (length proof =? proof_len c len) && (length qr =? 1) && (length jr =? 2) then
    let r := nth 0 qr fzero in
    if feqb (fpow r (2 ^ wire_log c len)) fone then None else
    let sinv := finv (of_nat num_shares) in
    let seeds := firstn (arity c) proof in
    let p := skipn (arity c) proof in
    let calls := call_inputs c len input (nth 0 jr fzero) sinv in
    Some (valid (query_outs c len p) input jr sinv ::
          map (fun w => poly_eval w r) (wire_polys c len seeds calls) ++ [poly_eval p r])
  else None.
(** Type::decide *)
Definition hist_decide (c : nat) (v : list fld) : option bool :=
  if length v =? verifier_len c then
    Some (feqb (nth 0 v fzero) fzero && feqb (par_sum (firstn (arity c) (skipn 1 v))) (nth (1 + arity c) v fzero))
  else None.

(** src/lib.rs:24-32, for the Mastic modes *)
Definition chunk : nat := 2.
(** the environment with this proof system *)
Definition with_hist (E : env) : env :=
  {| dbg := dbg E; x86 := x86 E; aes0 := aes0 E; blake3 := blake3 E; xof_bytes := xof_bytes E; xof_field := xof_field E; clog2f := clog2f E;
     flp_joint_rand_len := fun _ => 2; flp_query_rand_len := fun _ => 1; flp_prove_rand_len := fun _ => arity chunk;
     flp_prove := hist_prove chunk; flp_query := hist_query chunk; flp_decide := fun _ => hist_decide chunk;
     p3_prep_init := p3_prep_init E; p3_decode_share := p3_decode_share E; p3_msg := p3_msg E; p3_next := p3_next E |}.
