(** Specification for C66: what the driver can learn from two aggregators that follow the protocol. *)
From Verif Require Import Base Field Util Env Prg Vidpf Merkle Collect Server Driver SpecVidpf SpecCollect SpecLevel SpecWhh.

(** an aggregator that holds the given reports with the given marks, at any point of a run *)
Definition holding (first : bool) (len bits : nat) (reps : list (bool * report_share)) (s : server) : Prop :=
  s_poison s = false /\ (c_sid (s_coll s) =? 0)%Z = first /\ c_len (s_coll s) = len /\ c_depth (s_coll s) = Some bits /\
  c_reports (s_coll s) = reps.

(** A dishonest driver: start from the root again, announce that the FLP rejected all clients but the i-th,
    then proceed as the driver does.  Every request is one the aggregators accept. *)
Definition spy (fuel : nat) (E : env) (cfg : config) (n i : nat) (s0 s1 : server) : outcome (server * server * list result) :=
  let! '(s0, s1) := call2_done E s0 s1 QTreeInit QTreeInit in
  let keep := map (fun j => j =? i) (seq 0 n) in
  let! '(s0, s1) := call2_done E s0 s1 (QApplyFlpResults keep) (QApplyFlpResults keep) in
  let! bits := unwrap (cfg_bits cfg) in
  let! '(s0, s1) := levels_loop fuel E cfg s0 s1 n false (bits - 1) in
  run_level_last fuel E cfg s0 s1 n.

(** the sums of the two answers to a crawl request, node by node *)
Definition seen (len : nat) (v0 v1 : list (list fld)) : list (list fld) := map (fun vv => sum_vec (len + 1) (fst vv) (snd vv)) (combine v0 v1).
(** weights and number of the accepted reports below a prefix *)
Definition totals (L : list entry) (len : nat) (p : list bool) : list fld := map (weight L p) (seq 0 len) ++ [of_Z (count L p)].
(** the prefixes of the given length with at least thr supporters; the empty prefix is always looked at *)
Definition heavy_prefixes (thr : Z) (L : list entry) (k : nat) : list (list bool) :=
  match k with O => [[]] | S _ => filter (heavy thr L) (all_paths k) end.
(** the driver after the FLP check and k levels of the tree (driver.rs:752-766) *)
Definition levels_done (fuel : nat) (E : env) (cfg : config) (n k : nat) (s0 s1 : server) : outcome (server * server) :=
  let! '(s0, s1) := call2_done E s0 s1 QTreeInit QTreeInit in
  let! '(s0, s1) := drv_run_flp_queries fuel E cfg s0 s1 n in
  levels_loop fuel E cfg s0 s1 n false k.
