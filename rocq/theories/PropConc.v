(** Property C73 (src/bin/server.rs: main and every handler; Arc<Mutex<..>>): an aggregator that serves several
    requests at the same time answers them as if they came one after the other. *)
From Verif Require Import Base Field Util Env Prg Vidpf Merkle Collect Server Driver SpecPrg Sched SpecSched Conc SpecConc ConcFacts ToyEnv ExRun WhhExamples SchedExamples ConcExamples.

(** At every point m of every execution, with any number of requests of any kind in flight, the answers given so
    far are those of the sequential aggregator for some order of the answered requests.  What is answered later
    (m') comes later in the order, so a request that starts after another one was answered also takes effect
    after it. *)
Theorem C73_order : forall E s qs thr m m', env_ok E -> coll16 (s_coll s) -> Forall (fun q => Forall report16 (reports_in q)) qs -> (forall th, length (buf (thr th)) = 128) ->
  machine_steps E (machine_start s thr qs) m -> machine_steps E m m' ->
  (exists order, in_order E s qs m order) /\ forall order, in_order E s qs m order -> exists more, in_order E s qs m' (order ++ more).
Proof. exact conc_order. Qed.
Print Assumptions C73_order.

(** At most one handler at a time works on the collector, and the mutex is locked exactly then. *)
Theorem C73_exclusive : forall E s qs thr m, env_ok E -> coll16 (s_coll s) -> Forall (fun q => Forall report16 (reports_in q)) qs -> (forall th, length (buf (thr th)) = 128) ->
  machine_steps E (machine_start s thr qs) m -> (forall i j, holds_lock m i -> holds_lock m j -> i = j) /\ (m_locked m = true <-> exists i, holds_lock m i).
Proof. exact conc_exclusive. Qed.
Print Assumptions C73_exclusive.

(** The aggregator does not deadlock and no execution goes on for ever: every request is answered or panics. *)
Theorem C73_ends : forall E s qs thr, env_ok E -> coll16 (s_coll s) -> Forall (fun q => Forall report16 (reports_in q)) qs -> (forall th, length (buf (thr th)) = 128) ->
  (forall m, machine_steps E (machine_start s thr qs) m -> (forall i, i < length qs -> answered m i) \/ exists m', machine_step E m m') /\
  (forall f, f 0 = machine_start s thr qs -> ~ forall n, machine_step E (f n) (f (S n))).
Proof. exact conc_ends. Qed.
Print Assumptions C73_ends.

(** a crawl, two requests for shares and one for an empty range of proofs: while the crawl runs the others wait;
    in the end the fourth has overtaken the third, whose panic disables the aggregator before the second *)
Example C73_example : coll16 (s_coll c_srv) /\ Forall (fun q => Forall report16 (reports_in q)) k_qs /\ (forall th, length (buf (c_thr th)) = 128) /\
  (exists m, machine_steps tx k_start m /\ map k_see (m_stages m) = [SeenRunning; SeenWaiting; SeenWaiting; SeenWaiting]) /\
  (exists m, machine_steps tx k_start m /\ map k_see (m_stages m) = [SeenEntries 2; SeenPanic PPoison; SeenPanic PDebugAssert; SeenEntries 2]).
Proof. exact k_ok. Qed.
