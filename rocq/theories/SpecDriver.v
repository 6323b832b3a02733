(** Specification vocabulary for the driver. *)
From Verif Require Import Base Field Util Env Prg Vidpf Merkle Collect Server Driver.

(** the root node of an aggregator that has been initialised with n reports *)
Definition root_of (c : coll) (n : nat) : Prop := exists node, c_frontier c = [node] /\ length (tn_values node) = n.

(** the decision on report i alone: both aggregators are asked about this report only, the shares are
    added and handed to decide *)
Definition flp_verdict (E : env) (len : nat) (c0 c1 : coll) (i : nat) (b : bool) : Prop :=
  exists v0 v1, run_flp_queries E c0 i (i + 1) = Ret [v0] /\ run_flp_queries E c1 i (i + 1) = Ret [v1] /\
  flp_decide E len (map (fun xy => fadd (fst xy) (snd xy)) (combine v0 v1)) = Some b.

(** the reports held by an aggregator, flags aside *)
Definition held_shares (s : server) : list report_share := map snd (c_reports (s_coll s)).

(** the last bucket of a result *)
Definition last_bucket_zero (len : nat) (r : result) : Prop := nth_error (res_value r) (len - 1) = Some (of_Z 0).
