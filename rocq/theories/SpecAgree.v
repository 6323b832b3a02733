(** Specification for C69: the three modes of operation side by side. *)
From Verif Require Import Base Field Util Env Prg Vidpf Merkle Collect Server Driver Modes SpecVidpf SpecCollect SpecLevel SpecWhh SpecMetrics SpecModes.

(** the sum of a list of numbers; entry j of a vector of weights *)
Fixpoint zsum (l : list Z) : Z := match l with [] => 0%Z | x :: l' => (x + zsum l')%Z end.
Definition entry_of (j : nat) (w : list fld) : Z := fval (nth j w (of_Z 0)).
