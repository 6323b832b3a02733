(** Specification vocabulary for forged reports in attribute-based metrics. *)
From Verif Require Import Base Field Util Env Prg Vidpf SpecVidpf SpecTree Merkle Collect Server Driver SpecCollect SpecLevel SpecWhh SpecMetrics SpecForge SpecModes.

(** the string that differs from a in its last bit only *)
Definition sibling (a : list bool) : list bool := removelast a ++ [negb (last a false)].

(** the field elements the generator derives from a 16-byte seed *)
Definition stretch (E : env) (len : nat) (seed : bytes) : list fld :=
  match convert E seed len with Ret (_, w) => w | Panic _ => [] end.
(** what the attacker can add to its own weights: the difference of the elements derived from a seed of its
    choice and those derived from a fixed one *)
Definition shift_by (E : env) (len : nat) (sign : bool) (Y Z : bytes) (j : nat) : fld :=
  let d := fsub (nth j (stretch E len Z) (of_Z 0)) (nth j (stretch E len Y) (of_Z 0)) in if sign then d else fneg d.
(** the change at one attribute: only the attacker's own string is affected *)
Definition cell_change (E : env) (len : nat) (sign : bool) (Y Z : bytes) (alpha attr : list bool) (j : nat) : fld :=
  if list_eq_dec bool_dec attr alpha then shift_by E len sign Y Z j else of_Z 0.
(** the list with its i-th element replaced *)
Definition replace_at {A} (i : nat) (x : A) (l : list A) : list A := firstn i l ++ x :: skipn (S i) l.

(** what the report of a client contributes at an attribute when it counts with weights u at its own string
    and the rest goes to the sibling, as a change of its honest contribution *)
Definition any_change (beta u : list fld) (alpha attr : list bool) (j : nat) : fld :=
  let d := fsub (nth j u (of_Z 0)) (nth j beta (of_Z 0)) in
  if list_eq_dec bool_dec attr alpha then d else if list_eq_dec bool_dec attr (sibling alpha) then fneg d else of_Z 0.
