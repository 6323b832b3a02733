(** Properties C57 and C62 (src/bin/driver.rs, src/bin/server.rs, src/vidpf.rs): attribute-based metrics. *)
From Verif Require Import Base Field Util Env Prg Vidpf Merkle Collect Server Driver Modes SpecVidpf SpecLevel SpecWhh SpecMetrics SpecForge SpecModes SpecAbm
  AbmForge AbmRun AnyForge AbmExamples.

(** C57 is false: whatever the honest report, its client can choose a 16-byte seed Z and replace the last
    correction word so that the weight check gives the same verdict, the transcripts agree, nothing changes
    at any other attribute, and its own string counts with the elements derived from Z minus those derived
    from a fixed seed Y added to (or subtracted from) its weights.  The only condition is that the string
    differing from its own in the last bit is not among the attributes. *)
Theorem C57_refuted : forall E k0 k1 alpha beta, env_ok E -> honest_keys E k0 k1 alpha beta -> 2 <= length alpha ->
  exists sign Y, length Y = 16 /\ forall Z, length Z = 16 -> exists k0' k1', usable (length alpha) k0' /\ usable (length alpha) k1' /\
    forall vk attrs n0 p0 j0 n1 p1 j1 w, (forall a, In a attrs -> 1 <= length a <= length alpha) -> ~ In (sibling alpha) attrs ->
      row_of E (length beta) vk attrs (RSMastic n0 k0 p0 j0, RSMastic n1 k1 p1 j1) w ->
      exists w', row_of E (length beta) vk attrs (RSMastic n0 k0' p0 j0, RSMastic n1 k1' p1 j1) w' /\ w_fit w' = w_fit w /\ w_agree w' = true /\ w_agree w = true /\
        forall a attr j, nth_error attrs a = Some attr -> j < length beta ->
          fadd (comp a j (w_vals0 w')) (comp a j (w_vals1 w')) =
          fadd (fadd (comp a j (w_vals0 w)) (comp a j (w_vals1 w))) (cell_change E (length beta) sign Y Z alpha attr j).
Proof. exact C57_row_lemma. Qed.
Print Assumptions C57_refuted.

(** In a complete run: the tables with the forged report are the tables without it, except that every cell
    of that string is moved by these elements in all batches from that report on. *)
Theorem C57_refuted_run : forall E cfg len vk attrs R rows i n0 k0 p0 j0 n1 k1 p1 j1 alpha beta w,
  env_ok E -> cfg_hist cfg = len -> Forall2 (row_of E len vk attrs) R rows -> 0 < cfg_query_batch cfg ->
  existsb (fun w => negb (w_fit w) && negb (w_agree w)) rows = false ->
  nth_error R i = Some (RSMastic n0 k0 p0 j0, RSMastic n1 k1 p1 j1) -> nth_error rows i = Some w -> w_fit w = true ->
  honest_keys E k0 k1 alpha beta -> length beta = len -> 2 <= length alpha ->
  (forall a, In a attrs -> 1 <= length a <= length alpha) -> ~ In (sibling alpha) attrs ->
  exists sign Y, length Y = 16 /\ forall Z, length Z = 16 -> exists k0' k1' rows',
    let R' := replace_at i (RSMastic n0 k0' p0 j0, RSMastic n1 k1' p1 j1) R in
    Forall2 (row_of E len vk attrs) R' rows' /\
    (forall s0' s1', untouched true len vk (map fst R') s0' -> untouched false len vk (map snd R') s1' ->
       exists t0 t1, run_abm E cfg s0' s1' attrs (length rows) =
         Ret (t0, t1, map (fun e => row_table (dbg E) len attrs (firstn e rows')) (batch_ends (length rows) (cfg_query_batch cfg)))) /\
    forall e a attr j, nth_error attrs a = Some attr -> j < len ->
      cell (filter (kept (dbg E)) (firstn e rows')) a j =
      fadd (cell (filter (kept (dbg E)) (firstn e rows)) a j) (if i <? e then cell_change E len sign Y Z alpha attr j else of_Z 0).
Proof. exact C57_run_lemma. Qed.
Print Assumptions C57_refuted_run.

(** the three honest uploads of C52_example, strings 101 (twice) and 001, and the same with a forged first
    one: nothing is rejected, both buckets of 101 change, those of 001 do not *)
Example C57_example : a_check = true.
Proof. exact a_example. Qed.

(** C62 is false: nothing compares the public parts of the two keys.  Whatever the honest report and whatever
    the weights u, its client can give the two aggregators different last correction words so that the weight
    check gives the same verdict, the transcripts agree, and the report counts with u at its own string and
    with its checked weights minus u at the sibling, with no change elsewhere.  The only condition is that no
    attribute of full length has another parent. *)
Theorem C62_refuted : forall E k0 k1 alpha beta u, env_ok E -> honest_keys E k0 k1 alpha beta -> 2 <= length alpha -> length u = length beta ->
  exists k0' k1', usable (length alpha) k0' /\ usable (length alpha) k1' /\
    forall vk attrs n0 p0 j0 n1 p1 j1 w, (forall a, In a attrs -> 1 <= length a <= length alpha) -> (forall a, In a attrs -> length a = length alpha -> a = alpha \/ a = sibling alpha) ->
      row_of E (length beta) vk attrs (RSMastic n0 k0 p0 j0, RSMastic n1 k1 p1 j1) w ->
      exists w', row_of E (length beta) vk attrs (RSMastic n0 k0' p0 j0, RSMastic n1 k1' p1 j1) w' /\ w_fit w' = w_fit w /\ w_agree w' = true /\ w_agree w = true /\
        forall a attr j, nth_error attrs a = Some attr -> j < length beta ->
          fadd (comp a j (w_vals0 w')) (comp a j (w_vals1 w')) =
          fadd (fadd (comp a j (w_vals0 w)) (comp a j (w_vals1 w))) (any_change beta u alpha attr j).
Proof. exact C57_any_row_lemma. Qed.
Print Assumptions C62_refuted.

Theorem C62_refuted_run : forall E cfg len vk attrs R rows i n0 k0 p0 j0 n1 k1 p1 j1 alpha beta u w,
  env_ok E -> cfg_hist cfg = len -> Forall2 (row_of E len vk attrs) R rows -> 0 < cfg_query_batch cfg ->
  existsb (fun w => negb (w_fit w) && negb (w_agree w)) rows = false ->
  nth_error R i = Some (RSMastic n0 k0 p0 j0, RSMastic n1 k1 p1 j1) -> nth_error rows i = Some w -> w_fit w = true ->
  honest_keys E k0 k1 alpha beta -> length beta = len -> length u = len -> 2 <= length alpha ->
  (forall a, In a attrs -> 1 <= length a <= length alpha) -> (forall a, In a attrs -> length a = length alpha -> a = alpha \/ a = sibling alpha) ->
  exists k0' k1' rows',
    let R' := replace_at i (RSMastic n0 k0' p0 j0, RSMastic n1 k1' p1 j1) R in
    Forall2 (row_of E len vk attrs) R' rows' /\
    (forall s0' s1', untouched true len vk (map fst R') s0' -> untouched false len vk (map snd R') s1' ->
       exists t0 t1, run_abm E cfg s0' s1' attrs (length rows) =
         Ret (t0, t1, map (fun e => row_table (dbg E) len attrs (firstn e rows')) (batch_ends (length rows) (cfg_query_batch cfg)))) /\
    forall e a attr j, nth_error attrs a = Some attr -> j < len ->
      cell (filter (kept (dbg E)) (firstn e rows')) a j =
      fadd (cell (filter (kept (dbg E)) (firstn e rows)) a j) (if i <? e then any_change beta u alpha attr j else of_Z 0).
Proof. exact C57_any_run_lemma. Qed.
Print Assumptions C62_refuted_run.

(** the same uploads with attributes 101, 100 and 0: after the forgery 101 counts 1001 and 7 instead of 1 and
    1, 100 counts -1000 and -6 instead of 0 and 0, and prefix 0 is unchanged *)
Example C62_example : any_check = true.
Proof. exact any_example. Qed.
