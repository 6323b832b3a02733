(** Property C61 (src/vidpf.rs eval_tree, src/bin/server.rs, src/bin/driver.rs): what a report accepted in
    attribute-based metrics can contribute. *)
From Verif Require Import Base Field Util Env Prg Vidpf Merkle Collect Server Driver Modes SpecVidpf SpecTree SpecLevel SpecWhh SpecMetrics SpecForge SpecModes SpecHash SpecOne
  ToyEnv ExRun WhhExamples AbmExamples OneFacts OneRun OneForge OneExamples.

(** Arbitrary keys of a possibly dishonest client: if both carry the same public part, none of its hashes is
    zero, and no two hashes or generator outputs that this evaluation compares coincide by accident, then
    equal transcripts mean that there is one string: the report counts for nothing at every attribute off
    that string, and with exactly the checked weights and counter 1 at an attribute on it, provided the
    siblings of all nodes on the way to the attribute are looked at. *)
Theorem C61_sound : forall E k0 k1 len paths tr v0 b0 t v1 b1,
  env_ok E -> key_typed k0 -> key_typed k1 -> key_idx k0 = false -> key_idx k1 = true -> same_public k0 k1 ->
  (forall path, In path paths -> path <> []) ->
  eval_tree E k0 paths len tr = Ret (v0, b0, t) -> eval_tree E k1 paths len tr = Ret (v1, b1, t) ->
  (forall path i, In path paths -> i < length path -> nth i (cs k0) [] <> repeat 0%N 16) ->
  no_coincidence E k0 k1 len (under paths) ->
  exists alpha, forall i path w0 w1, nth_error paths i = Some path -> nth_error v0 i = Some w0 -> nth_error v1 i = Some w1 ->
    is_prefix path alpha = false \/ both_sides paths path -> shares_of w0 w1 (point_value alpha (vec_add b0 b1) path).
Proof. exact C61_sound_lemma. Qed.
Print Assumptions C61_sound.

(** In a complete run of a debug build: whatever the clients uploaded, the tables are those of a list of
    single votes, one for each report that was kept. *)
Theorem C61_run : forall E cfg len vk attrs R rows s0 s1,
  env_ok E -> dbg E = true -> cfg_hist cfg = len -> Forall2 (row_of E len vk attrs) R rows -> 0 < cfg_query_batch cfg ->
  existsb (fun w => negb (w_fit w) && negb (w_agree w)) rows = false ->
  untouched true len vk (map fst R) s0 -> untouched false len vk (map snd R) s1 ->
  (forall a, In a attrs -> a <> [] /\ both_sides attrs a) ->
  Forall2 (fun r w => kept true w = true -> well_checked E len attrs r w) R rows ->
  exists votes t0 t1, Forall2 vote_of rows votes /\ (forall alpha m, In (Some (alpha, m)) votes -> m < len) /\
    run_abm E cfg s0 s1 attrs (length rows) =
      Ret (t0, t1, map (fun e => tally_table len attrs (somes (firstn e votes))) (batch_ends (length rows) (cfg_query_batch cfg))).
Proof. exact C61_run_lemma. Qed.
Print Assumptions C61_run.

(** C61 is false without the condition on the hashes, which no aggregator checks: for every pattern of fixed
    and open bits a client can make a report whose transcripts agree on every list of attributes, whose
    checked weights are beta, and which counts with an equal fraction of beta at every string that fits the
    pattern.  All other conditions of C61_sound hold. *)
Theorem C61_refuted : forall E pat beta seed, env_ok E -> 1 <= length pat -> length seed = 16 ->
  exists k0 k1, usable (length pat) k0 /\ usable (length pat) k1 /\ key_idx k0 = false /\ key_idx k1 = true /\ root_seed k0 = seed /\ root_seed k1 = seed /\ same_public k0 k1 /\
    no_coincidence E k0 k1 (length beta) (fun q => length q <= length pat) /\
    forall paths tr, (forall path, In path paths -> 1 <= length path <= length pat) ->
    exists v0 v1 b0 b1 t, eval_tree E k0 paths (length beta) tr = Ret (v0, b0, t) /\ eval_tree E k1 paths (length beta) tr = Ret (v1, b1, t) /\
      vec_add b0 b1 = beta /\
      forall i path w0 w1, nth_error paths i = Some path -> nth_error v0 i = Some w0 -> nth_error v1 i = Some w1 -> shares_of w0 w1 (spread_value pat beta path).
Proof. exact C61_refuted_lemma. Qed.
Print Assumptions C61_refuted.
(** the fraction halves with every open bit *)
Theorem C61_refuted_half : forall x, fadd (half x) (half x) = x.
Proof. exact half_twice. Qed.
Print Assumptions C61_refuted_half.

(** the three honest uploads of C52_example with attributes that cover the tree: the conditions of C61_run
    hold; and the tables when the first report is replaced by one for the pattern 10*: it is accepted and
    counts one half at 101 and one half at 100 *)
Example C61_example : (forall a, In a o_attrs -> a <> [] /\ both_sides o_attrs a) /\ (forall r w, In r a_shares -> well_checked tx 2 o_attrs r w) /\ o_check = true.
Proof. exact o_example. Qed.
