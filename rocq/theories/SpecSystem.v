(** Specification for C77: however driver, aggregators and threads are scheduled, the run is the sequential one. *)
From Verif Require Import Base Field Util Env Prg Vidpf Merkle Collect Server Driver SpecPrg Sched SpecSched Conc System.

(** The system with driver [p], whatever the streams of the threads were used for before: it never gets stuck
    before the driver is done, it does not run for ever, and when the driver is done it has the expected
    result, with the aggregators in the expected states; or it has panicked, if a panic is expected. *)
Definition runs_as {A} (E : env) (p : proc A) (s0 s1 : server) (expected : outcome (server * server * A)) : Prop :=
  forall thr thr0 thr1, (forall th, length (buf (thr th)) = 128) -> (forall th, length (buf (thr0 th)) = 128) -> (forall th, length (buf (thr1 th)) = 128) ->
  let start := system_start p thr thr0 thr1 s0 s1 in
  (forall y, system_steps E start y -> (exists o, y_driver y = Busy (PDone o)) \/ exists y', system_step E y y') /\
  (forall f, f 0 = start -> ~ forall n, system_step E (f n) (f (S n))) /\
  (forall y o, system_steps E start y -> y_driver y = Busy (PDone o) ->
     match expected with
     | Ret (t0, t1, a) => o = Ret a /\ m_server (y_m0 y) = t0 /\ m_server (y_m1 y) = t1
     | Panic _ => exists e, o = Panic e
     end).
