(** Basic vocabulary of the model: panics as values, indexing, monadic loops.
    No file of /repo corresponds to this one; it fixes how Rust control flow is rendered. *)
From Coq Require Export List ZArith NArith Lia Bool Arith.
Export ListNotations.

(** Why a Rust thread panicked. *)
Inductive panic_kind :=
| PIndex        (* slice/Vec index or range out of bounds *)
| PAssert       (* assert! / assert_eq! / assert_ne! *)
| PDebugAssert  (* debug_assert! / debug_assert_eq!, only in debug builds *)
| PUnwrap       (* unwrap()/expect() on None or Err *)
| PExplicit     (* panic!(..) *)
| PArith        (* division by zero, zero chunk size, zero step, underflow in debug builds *)
| PPoison       (* lock().unwrap() on a poisoned mutex *)
| PFuel.        (* model only: a loop did not finish within the given number of iterations *)

(** A Rust computation that may panic. *)
Inductive outcome (A : Type) :=
| Ret (a : A)
| Panic (p : panic_kind).
Arguments Ret {A} a.
Arguments Panic {A} p.

Definition bind {A B} (m : outcome A) (k : A -> outcome B) : outcome B :=
  match m with Ret a => k a | Panic p => Panic p end.

Notation "'let!' x ':=' m 'in' k" := (bind m (fun x => k))
  (at level 200, x name, m at level 100, k at level 200, right associativity).
Notation "'let!' ' p ':=' m 'in' k" := (bind m (fun x => match x with p => k end))
  (at level 200, p pattern, m at level 100, k at level 200, right associativity).
Notation "'do!' m ';' k" := (bind m (fun _ => k))
  (at level 200, m at level 100, k at level 200, right associativity).

Definition is_ret {A} (m : outcome A) : bool := match m with Ret _ => true | Panic _ => false end.

(** assert!(b) *)
Definition assert_ (b : bool) : outcome unit := if b then Ret tt else Panic PAssert.
(** debug_assert!(b): evaluated only when the build has debug assertions. *)
Definition debug_assert (dbg b : bool) : outcome unit :=
  if dbg then (if b then Ret tt else Panic PDebugAssert) else Ret tt.
(** v[i] *)
Definition index {A} (l : list A) (i : nat) : outcome A :=
  match nth_error l i with Some a => Ret a | None => Panic PIndex end.
(** Option::unwrap *)
Definition unwrap {A} (o : option A) : outcome A :=
  match o with Some a => Ret a | None => Panic PUnwrap end.

(** iter().map(f).collect() with a panicking closure *)
Fixpoint mapM {A B} (f : A -> outcome B) (l : list A) : outcome (list B) :=
  match l with
  | [] => Ret []
  | a :: l' => let! b := f a in let! bs := mapM f l' in Ret (b :: bs)
  end.

(** iter().enumerate().map(f).collect(), counting from i *)
Fixpoint mapMi {A B} (f : nat -> A -> outcome B) (i : nat) (l : list A) : outcome (list B) :=
  match l with
  | [] => Ret []
  | a :: l' => let! b := f i a in let! bs := mapMi f (S i) l' in Ret (b :: bs)
  end.

(** for x in l { acc = f(acc, x)? } *)
Fixpoint foldM {A S} (f : S -> A -> outcome S) (s : S) (l : list A) : outcome S :=
  match l with
  | [] => Ret s
  | a :: l' => let! s' := f s a in foldM f s' l'
  end.

(** v[i] = a, used for in-bounds writes *)
Fixpoint update {A} (i : nat) (a : A) (l : list A) : list A :=
  match l, i with
  | [], _ => []
  | _ :: l', O => a :: l'
  | x :: l', S i' => x :: update i' a l'
  end.

(** slice &l[a..b] for a <= b <= len (the callers check) *)
Definition slice {A} (a b : nat) (l : list A) : list A := firstn (b - a) (skipn a l).

Definition bytes := list N.

(** [repeat_N] style constant vectors: vec![x; n] is [repeat x n] from the standard library. *)

(** equality tests used by the code on byte vectors and paths *)
Fixpoint list_eqb {A} (eqb : A -> A -> bool) (l1 l2 : list A) : bool :=
  match l1, l2 with
  | [], [] => true
  | a :: l1', b :: l2' => eqb a b && list_eqb eqb l1' l2'
  | _, _ => false
  end.
Definition bytes_eqb : bytes -> bytes -> bool := list_eqb N.eqb.
Definition path_eqb : list bool -> list bool -> bool := list_eqb Bool.eqb.

(** little-endian numbers *)
Fixpoint le_num (b : bytes) : N :=
  match b with [] => 0%N | x :: b' => (x + 256 * le_num b')%N end.
Fixpoint le_bytes (n : nat) (x : N) : bytes :=
  match n with O => [] | S n' => N.land x 255 :: le_bytes n' (N.shiftr x 8) end.
