(** Specification for C73: requests answered at the same time are answered as if one after the other. *)
From Verif Require Import Base Field Util Env Prg Vidpf Merkle Collect Server Driver SpecPrg Sched SpecSched Conc.

Definition answered (m : machine) (i : nat) : Prop := exists o, nth_error (m_stages m) i = Some (Answered o).
Definition holds_lock (m : machine) (i : nat) : Prop := exists t, nth_error (m_stages m) i = Some (Running t).
(** [order] lists the requests answered so far.  Handled in this order, one after the other, by the
    aggregator [s], they get the same answers and leave the same collector behind, unless it is poisoned: then
    it is poisoned in both. *)
Definition in_order (E : env) (s : server) (qs : list request) (m : machine) (order : list nat) : Prop :=
  NoDup order /\ (forall i, In i order <-> answered m i) /\
  exists qs' s' answers, Forall2 (fun i q => nth_error qs i = Some q) order qs' /\ handle_all E s qs' = (s', answers) /\
    Forall2 (fun i a => exists o, nth_error (m_stages m) i = Some (Answered o) /\ same_outcome o a) order answers /\
    m_poison m = s_poison s' /\ (m_poison m = false -> m_coll m = s_coll s').
