(** Specification for C71: runs that never end. *)
From Verif Require Import Base.

(** [run fuel] is the run that may go [fuel] times round each of its loops.  The run does not end: however
    many rounds it gets, it has not finished. *)
Definition endless {A} (run : nat -> outcome A) : Prop := forall fuel, run fuel = Panic PFuel.
(** The run ends, with one and the same outcome (a result or a panic), once it may go [n] times round each
    of its loops. *)
Definition ends_within {A} (n : nat) (run : nat -> outcome A) : Prop :=
  exists o, o <> Panic PFuel /\ forall fuel, n <= fuel -> run fuel = o.
