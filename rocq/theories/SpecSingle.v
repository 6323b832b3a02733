(** Specification for C89: what the printed tables say about a single client. *)
From Verif Require Import Base Field Util Env.

(** upload i of n is a batch of its own when the batches have size b *)
Definition own_batch (b n i : nat) : Prop := i < n /\ i mod b = 0 /\ (b = 1 \/ i + 1 = n).
(** a single vote for m *)
Definition single_vote (len m : nat) : list Z := map (fun j => if m =? j then 1%Z else 0%Z) (seq 0 len).
(** number j of attribute a in table number k of attribute-based metrics, and how much it grew since the table before *)
Definition reading (tables : list (list (list bool * list fld))) (k : nat) (a : list bool) (j : nat) : Z :=
  match find (fun e => if list_eq_dec Bool.bool_dec (fst e) a then true else false) (nth k tables []) with
  | Some e => fval (nth j (snd e) (of_Z 0))
  | None => 0%Z
  end.
Definition growth (tables : list (list (list bool * list fld))) (k : nat) (a : list bool) (j : nat) : Z :=
  (reading tables k a j - match k with O => 0 | S k' => reading tables k' a j end)%Z.
