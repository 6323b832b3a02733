(** Property C77 (src/bin/driver.rs, src/bin/server.rs): the driver and the two aggregators run at the same
    time, each with threads of its own; whatever the scheduling, a run ends with the result of the sequential
    program. *)
From Verif Require Import Base Field Util Env Prg Vidpf Merkle Collect Server Driver Modes SpecPrg SpecWhh Sched SpecSched Conc System SpecSystem SystemFacts ToyEnv ExRun WhhExamples SchedExamples SystemExamples.

(** Weighted heavy hitters, from the generation of the reports to the final values: the system is never stuck,
    no execution goes on for ever, and the outcome is that of main_whh. *)
Theorem C77_heavy : forall E fuel cfg clients vk chs s0 s1, env_ok E -> coll16 (s_coll s0) -> coll16 (s_coll s1) -> Forall client16 clients ->
  runs_as E (main_whh_p fuel E cfg clients vk chs) s0 s1 (main_whh fuel E cfg clients vk chs s0 s1).
Proof. exact system_whh. Qed.
Print Assumptions C77_heavy.

(** attribute-based metrics *)
Theorem C77_attributes : forall E fuel cfg clients vk chs samples order s0 s1, env_ok E -> coll16 (s_coll s0) -> coll16 (s_coll s1) -> Forall client16 clients ->
  runs_as E (main_abm_p fuel E cfg clients vk chs samples order) s0 s1 (main_abm fuel E cfg clients vk chs samples order s0 s1).
Proof. exact system_abm. Qed.
Print Assumptions C77_attributes.

(** plain metrics *)
Theorem C77_plain : forall E fuel shard cfg clients vk chs s0 s1, env_ok E -> coll16 (s_coll s0) -> coll16 (s_coll s1) ->
  runs_as E (main_pm_p fuel E shard cfg clients vk chs) s0 s1 (main_pm fuel E shard cfg clients vk chs s0 s1).
Proof. exact system_pm. Qed.
Print Assumptions C77_plain.

(** Five uploads by three clients: there are executions in which both aggregators are inside a handler at the
    same time, in which one has answered a crawl and the other has not, and in which the driver ends with the
    one heavy string; and with an aggregator disabled by an earlier panic one in which the driver panics. *)
Example C77_example : coll16 (s_coll (fst w_servers)) /\ coll16 (s_coll (snd w_servers)) /\ coll16 (s_coll y_disabled) /\ Forall client16 w_clients /\ (forall th, length (buf (c_thr th)) = 128) /\
  (exists y, system_steps tx (y_start w_clients) y /\ both_run y = true) /\ (exists y, system_steps tx (y_start w_clients) y /\ half_done y = true) /\
  (exists y, system_steps tx (y_start w_clients) y /\ printed_is [([true; false; true], [1; 2; 3])]%Z y = true) /\
  (exists y, system_steps tx y_start2 y /\ failed y = true).
Proof. exact y_ok. Qed.
Print Assumptions C77_example.
