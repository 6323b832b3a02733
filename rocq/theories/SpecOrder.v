(** Specification for C67 and C68. *)
From Verif Require Import Base Field Util Env Prg Vidpf Merkle Collect Server Driver SpecVidpf SpecLevel SpecWhh.

(** the part of the outcome the user sees: the list of results, or the panic *)
Definition visible (o : outcome (server * server * list result)) : outcome (list result) :=
  match o with Ret (_, _, rs) => Ret rs | Panic k => Panic k end.
(** one and the same report, uploaded m times *)
Fixpoint copies {A} (m : nat) (x : A) : list A := match m with O => [] | S m' => x :: copies m' x end.
