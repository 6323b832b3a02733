(** Finer model of one aggregator that answers several requests at the same time (src/bin/server.rs:341-359:
    every connection and every request on it is served by a future of its own).  The handlers share the
    collector through Arc<Mutex<..>> (src/bin/server.rs:44,336). *)
From Verif Require Import Base Field Util Env Prg Vidpf Merkle Collect Server Driver Sched.

(** How far a request has got. *)
Inductive stage :=
| Received (q : request)                  (* its handler has not run yet *)
| Waiting (q : request)                   (* in self.arc.lock(), the first line of every handler but for the debug_assert! of src/bin/server.rs:155,206,232,284 *)
| Running (t : task (coll * response))    (* holds the guard, with this left to do *)
| Answered (o : outcome response).

(** The aggregator: the fields of CollectorServer (src/bin/server.rs:39-45), the collector inside the mutex with
    the two flags of the mutex, the streams of the threads, and the requests. *)
Record machine := {
  m_id : Z; m_bits : option nat; m_coll : coll; m_poison : bool; m_locked : bool;
  m_threads : threads; m_stages : list stage }.
Definition machine_start (s : server) (thr : threads) (qs : list request) : machine :=
  {| m_id := s_id s; m_bits := s_bits s; m_coll := s_coll s; m_poison := s_poison s; m_locked := false;
     m_threads := thr; m_stages := map Received qs |}.
(** what the handlers see *)
Definition m_server (m : machine) : server :=
  {| s_id := m_id m; s_bits := m_bits m; s_coll := m_coll m; s_poison := m_poison m |}.
Definition m_set (m : machine) (c : coll) (poison locked : bool) (thr : threads) (i : nat) (st : stage) : machine :=
  {| m_id := m_id m; m_bits := m_bits m; m_coll := c; m_poison := poison; m_locked := locked;
     m_threads := thr; m_stages := update i st (m_stages m) |}.

(** One step of the i-th request.  lock() waits until the mutex is free; lock().unwrap() on a poisoned mutex
    panics (the guard inside the error is dropped, so the mutex is free again).  A handler never awaits while
    it holds the guard, and the closures it hands to rayon do not lock.  When it returns the guard is dropped.
    When it panics the mutex is poisoned, and the collector is left in whatever state it was in. *)
Definition request_step (E : env) (m : machine) (i : nat) (m' : machine) : Prop :=
  match nth_error (m_stages m) i with
  | Some (Received q) =>
      m' = m_set m (m_coll m) (m_poison m) (m_locked m) (m_threads m) i
             (match prelock E q with Ret _ => Waiting q | Panic p => Answered (Panic p) end)
  | Some (Waiting q) =>
      m_locked m = false /\
      m' = (if m_poison m
            then m_set m (m_coll m) true false (m_threads m) i (Answered (Panic PPoison))
            else m_set m (m_coll m) false true (m_threads m) i (Running (body_t E (m_server m) q)))
  | Some (Running t) =>
      (exists thr' t', step E (m_threads m) t thr' t' /\ m' = m_set m (m_coll m) (m_poison m) (m_locked m) thr' i (Running t')) \/
      (exists c r, t = TDone (Ret (c, r)) /\ m' = m_set m c (m_poison m) false (m_threads m) i (Answered (Ret r))) \/
      (exists p c, t = TDone (Panic p) /\ m' = m_set m c true false (m_threads m) i (Answered (Panic p)))
  | Some (Answered _) | None => False
  end.
Definition machine_step (E : env) (m m' : machine) : Prop := exists i, request_step E m i m'.
(** any number of steps *)
Inductive machine_steps (E : env) : machine -> machine -> Prop :=
| machine_none m : machine_steps E m m
| machine_more m m1 m2 : machine_step E m m1 -> machine_steps E m1 m2 -> machine_steps E m m2.
