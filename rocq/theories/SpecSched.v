(** Specification for C72: outcomes that do not depend on the scheduling of the threads. *)
From Verif Require Import Base Field Util Env Prg Vidpf Merkle Collect Server Driver SpecPrg Sched.

(** the same value; or a panic, if a panic is expected (of several closures that panic rayon reports one) *)
Definition same_outcome {A} (o expected : outcome A) : Prop :=
  match expected with Ret a => o = Ret a | Panic _ => exists p, o = Panic p end.

(** Whatever the streams of the threads were used for before and however the steps interleave: the task is
    over after at most [bound] steps, is never stuck before, and ends with the expected outcome. *)
Definition schedule_free {A} (E : env) (t : task A) (expected : outcome A) : Prop :=
  exists bound, forall thr, (forall th, length (buf (thr th)) = 128) ->
    forall n thr' t', steps E n thr t thr' t' ->
      n <= bound /\ ((exists o, t' = TDone o /\ same_outcome o expected) \/ (exists thr'' t'', step E thr' t' thr'' t'')).

(** seeds are 16 bytes, as their types say (src/prg.rs:20-26, vidpf.rs:7-42) *)
Definition key16 (k : vidpf_key) : Prop := is_key (root_seed k) /\ Forall (fun cw => is_key (cw_seed cw)) (cor_words k).
Definition report16 (r : report_share) : Prop := match r with RSMastic _ k _ _ => key16 k | RSPrio3 _ _ _ => True end.
Definition node16 (n : tree_node) : Prop := Forall (fun st => is_key (es_seed st)) (tn_states n).
Definition coll16 (c : coll) : Prop :=
  Forall (fun hr : bool * report_share => report16 (snd hr)) (c_reports c) /\ Forall node16 (c_frontier c) /\ Forall node16 (c_prev c).
Definition client16 (cl : client) : Prop := is_key (cl_seed0 cl) /\ is_key (cl_seed1 cl).
(** the reports a request brings *)
Definition reports_in (q : request) : list report_share := match q with QAddReportShares rs => rs | _ => [] end.
