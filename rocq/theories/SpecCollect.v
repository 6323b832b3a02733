(** Specification vocabulary for the collector. *)
From Verif Require Import Base Field.

(** the elements whose flag is true, in order *)
Fixpoint select {A} (keep : list bool) (l : list A) : list A :=
  match keep, l with
  | k :: keep', a :: l' => if k then a :: select keep' l' else select keep' l'
  | _, _ => []
  end.

(** sum of a list of field elements *)
Fixpoint fsum (l : list fld) : fld := match l with [] => of_Z 0 | x :: l' => fadd x (fsum l') end.

(** component j of the vectors whose flag is set, summed *)
Definition masked_sum (j : nat) (flags : list bool) (vals : list (list fld)) : fld :=
  fsum (map (fun v => nth j v (of_Z 0)) (select flags vals)).

(** component-wise sum of two vectors, n components, missing ones read as 0 *)
Definition sum_vec (n : nat) (v0 v1 : list fld) : list fld :=
  map (fun i => fadd (nth i v0 (of_Z 0)) (nth i v1 (of_Z 0))) (seq 0 n).

(** lexicographic order on paths, false before true *)
Fixpoint path_lt (p q : list bool) : Prop :=
  match p, q with
  | [], _ :: _ => True
  | x :: p', y :: q' => (x = false /\ y = true) \/ (x = y /\ path_lt p' q')
  | _, _ => False
  end.
Fixpoint sorted_paths (l : list (list bool)) : Prop :=
  match l with
  | [] => True
  | p :: l' => (forall q, In q l' -> path_lt p q) /\ sorted_paths l'
  end.
