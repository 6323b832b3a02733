(** Specification for C70: an aggregator that adds a constant to its shares of the counters. *)
From Verif Require Import Base Field Util Env Prg Vidpf Merkle Collect Server Driver SpecVidpf SpecLevel SpecWhh.

(** d added to the last entry *)
Definition shifted (len : nat) (d : Z) (v : list fld) : list fld := firstn len v ++ [fadd (nth len v (of_Z 0)) (of_Z d)].
(** the first aggregator does this in its answers to the two kinds of crawl requests; otherwise both follow
    the protocol, and so does the driver: the rest is the code of the driver *)
Definition ask_shifted (E : env) (len : nat) (d : Z) (ss : server * server) (split : nat) (malicious : list nat) (is_last : bool)
  : outcome ((server * server) * crawl_answer * crawl_answer) :=
  let! '(ss', a0, a1) := ask_servers E ss split malicious is_last in
  let '(v0, r0, i0) := a0 in Ret (ss', (map (shifted len d) v0, r0, i0), a1).
Definition run_level_shifted (d : Z) (fuel : nat) (E : env) (cfg : config) (s0 s1 : server) (num_clients : nat) : outcome (server * server) :=
  let! '(ss, keep, _) := level_loop fuel (ask_shifted E (cfg_hist cfg) d) (cfg_hist cfg) num_clients (threshold cfg) (s0, s1) 1 [] false in
  call2_done E (fst ss) (snd ss) (QTreePrune keep) (QTreePrune keep).
Definition run_last_shifted (d : Z) (fuel : nat) (E : env) (cfg : config) (s0 s1 : server) (num_clients : nat) : outcome (server * server * list result) :=
  let! '(s0, s1, rr) := call2 E s0 s1 QTreeCrawlLast QTreeCrawlLast in
  match rr with
  | (AFields v0, AFields v1) =>
      let v0 := map (shifted (cfg_hist cfg) d) v0 in
      do! assert_ (length v0 =? length v1);
      let! keep := keep_values (cfg_hist cfg) (threshold cfg) v0 v1 in
      let! '(s0, s1) := proofs_loop fuel E cfg s0 s1 num_clients 0 in
      let! '(s0, s1) := call2_done E s0 s1 (QTreePrune keep) (QTreePrune keep) in
      let! '(s0, s1, rr) := call2 E s0 s1 QFinalShares QFinalShares in
      match rr with
      | (AFinal f0, AFinal f1) => let! res := final_values (cfg_hist cfg) f0 f1 in Ret (s0, s1, res)
      | _ => Panic PExplicit
      end
  | _ => Panic PExplicit
  end.
Fixpoint levels_shifted (d : Z) (fuel : nat) (E : env) (cfg : config) (s0 s1 : server) (num_clients : nat) (first : bool) (levels : nat) : outcome (server * server) :=
  match levels with
  | O => Ret (s0, s1)
  | S levels' =>
      let! '(s0, s1) := (if first then drv_run_flp_queries fuel E cfg s0 s1 num_clients else Ret (s0, s1)) in
      let! '(s0, s1) := run_level_shifted d fuel E cfg s0 s1 num_clients in
      levels_shifted d fuel E cfg s0 s1 num_clients false levels'
  end.
Definition run_shifted (d : Z) (fuel : nat) (E : env) (cfg : config) (s0 s1 : server) (num_clients : nat) : outcome (server * server * list result) :=
  let! '(s0, s1) := call2_done E s0 s1 QTreeInit QTreeInit in
  let! bits := unwrap (cfg_bits cfg) in
  if bits =? 0 then Panic PArith else
  let! '(s0, s1) := levels_shifted d fuel E cfg s0 s1 num_clients true (bits - 1) in
  run_last_shifted d fuel E cfg s0 s1 num_clients.

(** the same configuration with another threshold *)
Definition with_threshold (c : Z) (cfg : config) : config :=
  {| cfg_bits := cfg_bits cfg; cfg_hist := cfg_hist cfg; cfg_add_batch := cfg_add_batch cfg; cfg_query_batch := cfg_query_batch cfg; cfg_thr := c |}.
