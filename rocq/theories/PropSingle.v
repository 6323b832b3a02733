(** Property C89 (src/bin/driver.rs:539-612, 614-686): the tables printed in the two kinds of metrics do not single out a
    client.  False: there is one table per batch, and a batch may hold a single report. *)
From Verif Require Import Base Field Util Env Prg Vidpf Merkle Collect Server Driver Modes SpecVidpf SpecLevel SpecWhh SpecMetrics SpecModes SpecSingle SingleFacts
  RefEnv ToyEnv ExRun DriverPropFacts RefuteExamples WhhExamples ModesExamples SingleExamples.
From Coq Require Import Permutation.

(** Plain metrics: if an honest upload is a batch of its own, because the batches have size one or because it is the only one left
    for the last batch, one of the printed histograms is its vote. *)
Theorem C89_refuted : forall E shard len vk clients chs fuel cfg s0 s1,
  (forall cl, In cl clients -> shard len (pc_bucket cl) (pc_nonce cl) (pc_rand cl) <> None) -> Forall (good_pm_choice E shard len vk clients) chs ->
  cfg_hist cfg = len -> hist_ok len = true -> clients <> [] -> 0 < cfg_query_batch cfg -> 0 < cfg_add_batch cfg ->
  length chs <= fuel -> (Z.of_nat (length chs) < 2 ^ 64)%Z ->
  s_poison s0 = false -> s_id s0 = 0%Z -> s_poison s1 = false -> s_id s1 = 1%Z ->
  exists t0 t1 tables, main_pm fuel E shard cfg clients vk chs s0 s1 = Ret (t0, t1, tables) /\
    forall i ch cl, own_batch (cfg_query_batch cfg) (length chs) i -> nth_error chs i = Some ch -> ch_malicious ch = false -> nth_error clients (ch_idx ch) = Some cl ->
      nth_error tables (i / cfg_query_batch cfg) = Some (single_vote len (pc_bucket cl), 0%Z).
Proof. exact single_pm. Qed.
Print Assumptions C89_refuted.

(** Attribute-based metrics: the growth of the table from the batch before is the vote of that client, if its string is an
    attribute, and nothing if not. *)
Theorem C89_attributes_refuted : forall E len bits vk clients reports chs samples order fuel cfg s0 s1,
  env_ok E -> 1 <= bits -> mapM (gen_report E len) clients = Ret reports ->
  Forall (good_client E len bits vk) clients -> Forall (good_choice E len vk reports) chs -> fixed_verifier_len E len ->
  cfg_hist cfg = len -> 0 < cfg_query_batch cfg -> 0 < cfg_add_batch cfg -> hist_ok len = true -> clients <> [] -> length chs <= fuel -> (Z.of_nat (length chs) < 2 ^ 64)%Z ->
  running 0 bits s0 -> (exists id, id <> 0%Z /\ running id bits s1) ->
  (forall s, In s samples -> 1 <= s < length clients) -> (forall l, Permutation (order l) l) ->
  exists t0 t1 tables, main_abm fuel E cfg clients vk chs samples order s0 s1 = Ret (t0, t1, tables) /\
    forall i ch cl s c a j, own_batch (cfg_query_batch cfg) (length chs) i -> nth_error chs i = Some ch -> counts ch = true -> nth_error clients (ch_idx ch) = Some cl ->
      In s samples -> nth_error clients s = Some c -> a = cl_alpha c -> j < len ->
      growth tables (i / cfg_query_batch cfg) a j = if list_eq_dec Bool.bool_dec a (cl_alpha cl) then (if cl_bucket cl =? j then 1%Z else 0%Z) else 0%Z.
Proof. exact single_abm. Qed.
Print Assumptions C89_attributes_refuted.

(** Nothing beyond the votes of each batch shows: two runs whose batches hold the same votes in any order, whoever cast them and
    whatever the keys, the randomness and the sharding, print the same histograms. *)
Theorem C89_batches : forall E shard len vk clients chs fuel cfg s0 s1 E' shard' vk' clients' chs' fuel' cfg' s0' s1',
  (forall cl, In cl clients -> shard len (pc_bucket cl) (pc_nonce cl) (pc_rand cl) <> None) -> Forall (good_pm_choice E shard len vk clients) chs ->
  cfg_hist cfg = len -> hist_ok len = true -> clients <> [] -> 0 < cfg_query_batch cfg -> 0 < cfg_add_batch cfg ->
  length chs <= fuel -> (Z.of_nat (length chs) < 2 ^ 64)%Z -> s_poison s0 = false -> s_id s0 = 0%Z -> s_poison s1 = false -> s_id s1 = 1%Z ->
  (forall cl, In cl clients' -> shard' len (pc_bucket cl) (pc_nonce cl) (pc_rand cl) <> None) -> Forall (good_pm_choice E' shard' len vk' clients') chs' ->
  cfg_hist cfg' = len -> clients' <> [] -> 0 < cfg_query_batch cfg' -> 0 < cfg_add_batch cfg' ->
  length chs' <= fuel' -> (Z.of_nat (length chs') < 2 ^ 64)%Z -> s_poison s0' = false -> s_id s0' = 0%Z -> s_poison s1' = false -> s_id s1' = 1%Z ->
  Forall2 (@Permutation (option nat)) (pieces (cfg_query_batch cfg) (pm_votes clients chs)) (pieces (cfg_query_batch cfg') (pm_votes clients' chs')) ->
  exists t0 t1 t0' t1' tables, main_pm fuel E shard cfg clients vk chs s0 s1 = Ret (t0, t1, tables) /\ main_pm fuel' E' shard' cfg' clients' vk' chs' s0' s1' = Ret (t0', t1', tables).
Proof. exact batches_pm. Qed.
Print Assumptions C89_batches.

(** The same for attribute-based metrics: as many tables, and the same numbers for every attribute the two runs have in common. *)
Theorem C89_attribute_batches : forall E len bits vk clients reports chs samples order fuel cfg s0 s1
  E' bits' vk' clients' reports' chs' samples' order' fuel' cfg' s0' s1' t0 t1 tables t0' t1' tables',
  env_ok E -> 1 <= bits -> mapM (gen_report E len) clients = Ret reports ->
  Forall (good_client E len bits vk) clients -> Forall (good_choice E len vk reports) chs -> fixed_verifier_len E len ->
  cfg_hist cfg = len -> 0 < cfg_query_batch cfg -> 0 < cfg_add_batch cfg -> hist_ok len = true -> clients <> [] -> length chs <= fuel ->
  running 0 bits s0 -> (exists id, id <> 0%Z /\ running id bits s1) -> (forall s, In s samples -> 1 <= s < length clients) -> (forall l, Permutation (order l) l) ->
  env_ok E' -> 1 <= bits' -> mapM (gen_report E' len) clients' = Ret reports' ->
  Forall (good_client E' len bits' vk') clients' -> Forall (good_choice E' len vk' reports') chs' -> fixed_verifier_len E' len ->
  cfg_hist cfg' = len -> 0 < cfg_query_batch cfg' -> 0 < cfg_add_batch cfg' -> clients' <> [] -> length chs' <= fuel' ->
  running 0 bits' s0' -> (exists id, id <> 0%Z /\ running id bits' s1') -> (forall s, In s samples' -> 1 <= s < length clients') -> (forall l, Permutation (order' l) l) ->
  Forall2 (@Permutation (list bool * nat)) (map (in_table (dbg E) clients) (pieces (cfg_query_batch cfg) chs)) (map (in_table (dbg E') clients') (pieces (cfg_query_batch cfg') chs')) ->
  main_abm fuel E cfg clients vk chs samples order s0 s1 = Ret (t0, t1, tables) -> main_abm fuel' E' cfg' clients' vk' chs' samples' order' s0' s1' = Ret (t0', t1', tables') ->
  length tables = length tables' /\ forall k t t' a w w', nth_error tables k = Some t -> nth_error tables' k = Some t' -> In (a, w) t -> In (a, w') t' -> w = w'.
Proof. exact batches_abm. Qed.
Print Assumptions C89_attribute_batches.

(** The run of C53_example, four uploads in batches of three: the second histogram is the vote of the fourth upload. *)
Example C89_example : own_batch 3 4 3 /\ exists t0 t1 t,
  main_pm 20 rx p_shard (cfg2 2 3 1) p_clients ex_vk p_choices (server_start 0 None 2) (server_start 1 None 2) = Ret (t0, t1, [t; ([0; 1], 0)%Z]).
Proof. exact sg_pm. Qed.
(** The first three uploads of C52_example in batches of two: the second table has grown by the vote of the third client, string 001 and
    bucket 1. *)
Example C89_attributes_example : exists t0 t1 tables,
  main_abm 20 tx (cfg2 2 2 1) w_clients ex_vk sg_choices [1; 2; 1] (@rev (list bool)) (fst w_servers) (snd w_servers) = Ret (t0, t1, tables) /\ own_batch 2 3 2 /\
  growth tables 1 [true; false; true] 0 = 0%Z /\ growth tables 1 [true; false; true] 1 = 0%Z /\ growth tables 1 [false; false; true] 0 = 0%Z /\ growth tables 1 [false; false; true] 1 = 1%Z.
Proof. exact sg_abm. Qed.
(** The first three uploads of C53_example in the opposite order: the same tables. *)
Example C89_batches_example : p_choices <> sg_other /\ exists t0 t1 t0' t1' tables,
  main_pm 20 rx p_shard (cfg2 2 3 1) p_clients ex_vk p_choices (server_start 0 None 2) (server_start 1 None 2) = Ret (t0, t1, tables) /\
  main_pm 20 rx p_shard (cfg2 2 3 1) p_clients ex_vk sg_other (server_start 0 None 2) (server_start 1 None 2) = Ret (t0', t1', tables).
Proof. exact sg_batches. Qed.
(** The first two uploads of C52_example exchanged. *)
Example C89_attribute_batches_example : w_choices <> sg_swapped /\ Forall (good_choice tx 2 ex_vk w_reports) sg_swapped /\
  Forall2 (@Permutation (list bool * nat)) (map (in_table true w_clients) (pieces 2 w_choices)) (map (in_table true w_clients) (pieces 2 sg_swapped)).
Proof. exact sg_swap. Qed.
