(** Property C72 (src/collect.rs, src/bin/server.rs, src/bin/driver.rs: every par_iter; src/prg.rs:47-123): the
    result of a parallel computation does not depend on how its closures are scheduled. *)
From Verif Require Import Base Field Util Env Prg Vidpf Merkle Collect Server Driver SpecPrg Sched SpecSched SchedRun ToyEnv ExRun WhhExamples SchedExamples.
From Coq Require Import Permutation.

(** Handlers: in any state whose seeds are 16 bytes long, for any request, whatever the threads did before and
    however their steps interleave, the handler is over after a bounded number of steps with the outcome of the
    sequential model (a panic if that panics). *)
Theorem C72_handlers : forall E s q, env_ok E -> coll16 (s_coll s) -> schedule_free E (body_t E s q) (body E s q).
Proof. exact body_free. Qed.
Print Assumptions C72_handlers.

(** so in every state an aggregator can get into, if the reports it was sent have 16-byte seeds *)
Theorem C72_requests : forall E id bits hist qs q, env_ok E -> Forall (fun q => Forall report16 (reports_in q)) qs ->
  schedule_free E (body_t E (fst (handle_all E (server_start id bits hist) qs)) q) (body E (fst (handle_all E (server_start id bits hist) qs)) q).
Proof. exact requests_free. Qed.
Print Assumptions C72_requests.

(** Report generation: the same for the par_iter over the clients. *)
Theorem C72_reports : forall E len cls, env_ok E -> Forall client16 cls -> schedule_free E (gen_reports_t E len cls) (mapM (gen_report E len) cls).
Proof. exact reports_free. Qed.
Print Assumptions C72_reports.

(** Tables: the HashMap of src/bin/server.rs:218 may be iterated in any order. *)
Theorem C72_order : forall E c m m' rej n, Permutation m m' ->
  (exists r r' t, abm_result E (set_abm c m) rej n = Ret (set_abm c r, t) /\ abm_result E (set_abm c m') rej n = Ret (set_abm c r', t) /\ Permutation r r') \/
  (exists p, abm_result E (set_abm c m) rej n = Panic p /\ abm_result E (set_abm c m') rej n = Panic p).
Proof. exact table_order. Qed.
Print Assumptions C72_order.

(** three reports, the first crawl, three threads in turn with used streams, the last closure first: 18 steps
    and the same counters and root *)
Example C72_example : coll16 (s_coll c_srv) /\ (forall th, length (buf (c_thr th)) = 128) /\
  exists a thr', steps tx 18 c_thr c_task thr' (TDone (Ret a)) /\ answer_eqb (answer_of (Ret a)) (answer_of (body tx c_srv (QTreeCrawl 1 [] false))) = true.
Proof. exact c_ok. Qed.
