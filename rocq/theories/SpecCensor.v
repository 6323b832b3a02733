(** Specification for C81: an aggregator that answers the FLP queries with something else. *)
From Verif Require Import Base Field Util Env Prg Vidpf Merkle Collect Server Driver SpecVidpf SpecLevel SpecWhh.

(** the aggregator changes its verifier share of the report at position i by [lie i] *)
Definition lied (lie : nat -> list fld -> list fld) (start : nat) (v : list (list fld)) : list (list fld) :=
  map (fun iv => lie (fst iv) (snd iv)) (combine (seq start (length v)) v).
(** one of the aggregators (the first if [who]) does this in its answers to the FLP queries; otherwise both
    follow the protocol, and so does the driver: the rest is the code of the driver *)
Fixpoint flp_loop_lying (who : bool) (lie : nat -> list fld -> list fld) (fuel : nat) (E : env) (cfg : config) (s0 s1 : server) (num_clients start : nat) (keep : list bool)
  : outcome (server * server * list bool) :=
  if start <? num_clients then
    match fuel with
    | O => Panic PFuel
    | S fuel' =>
        let stop := Nat.min num_clients (start + cfg_query_batch cfg) in
        let! '(s0, s1, rr) := call2 E s0 s1 (QRunFlpQueries start stop) (QRunFlpQueries start stop) in
        match rr with
        | (AFields v0, AFields v1) =>
            let v0 := if who then lied lie start v0 else v0 in
            let v1 := if who then v1 else lied lie start v1 in
            do! debug_assert (dbg E) (length v0 =? length v1);
            let! ks := mapM (flp_decide_pair E (cfg_hist cfg)) (combine v0 v1) in
            flp_loop_lying who lie fuel' E cfg s0 s1 num_clients (start + cfg_query_batch cfg) (keep ++ ks)
        | _ => Panic PExplicit
        end
    end
  else Ret (s0, s1, keep).
Fixpoint levels_lying (who : bool) (lie : nat -> list fld -> list fld) (fuel : nat) (E : env) (cfg : config) (s0 s1 : server) (num_clients : nat) (first : bool) (levels : nat)
  : outcome (server * server) :=
  match levels with
  | O => Ret (s0, s1)
  | S levels' =>
      let! '(s0, s1) :=
        (if first then
           let! '(s0, s1, keep) := flp_loop_lying who lie fuel E cfg s0 s1 num_clients 0 [] in
           call2_done E s0 s1 (QApplyFlpResults keep) (QApplyFlpResults keep)
         else Ret (s0, s1)) in
      let! '(s0, s1) := run_level fuel E cfg s0 s1 num_clients in
      levels_lying who lie fuel E cfg s0 s1 num_clients false levels'
  end.
Definition run_lying (who : bool) (lie : nat -> list fld -> list fld) (fuel : nat) (E : env) (cfg : config) (s0 s1 : server) (num_clients : nat)
  : outcome (server * server * list result) :=
  let! '(s0, s1) := call2_done E s0 s1 QTreeInit QTreeInit in
  let! bits := unwrap (cfg_bits cfg) in
  if bits =? 0 then Panic PArith else
  let! '(s0, s1) := levels_lying who lie fuel E cfg s0 s1 num_clients true (bits - 1) in
  run_level_last fuel E cfg s0 s1 num_clients.

(** the outcome of the FLP check of one report when the verifier share of one aggregator is changed *)
Definition lied_verdict (E : env) (len : nat) (vk : bytes) (who : bool) (lie : list fld -> list fld) (r0 r1 : report_share) (b : bool) : Prop :=
  exists v0 v1, verifier_share E true len vk r0 = Some v0 /\ verifier_share E false len vk r1 = Some v1 /\
  flp_decide E len (if who then add_shares (lie v0) v1 else add_shares v0 (lie v1)) = Some b.

(** 1 added to the first entry of the share, for the reports in a set *)
Definition plus_one (v : list fld) : list fld := match v with [] => [] | x :: v' => fadd x (of_Z 1) :: v' end.
Definition censor (D : nat -> bool) (i : nat) (v : list fld) : list fld := if D i then plus_one v else v.
(** the reports that are left: those not in the set *)
Definition spared (D : nat -> bool) (L : list entry) : list entry :=
  map snd (filter (fun ie => negb (D (fst ie))) (combine (seq 0 (length L)) L)).
