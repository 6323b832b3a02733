(** The driver as a process of its own, and the whole system: driver, two aggregators, and everything that is
    under way between them (src/bin/driver.rs, src/bin/server.rs).  The functions below are those of Driver and
    Modes with the calls of the aggregators as explicit requests. *)
From Verif Require Import Base Field Util Env Prg Vidpf Merkle Collect Server Driver Modes Sched Conc.

(** What the driver has left to do: it is over; it computes on its own threads; or it sends a request to each
    aggregator and waits for both answers (try_join!(..).unwrap()). *)
Inductive proc (A : Type) : Type :=
| PDone (o : outcome A)
| PCompute (B : Type) (t : task B) (k : B -> proc A)
| PAsk (q0 q1 : request) (k : response -> response -> proc A).
Arguments PDone {A}. Arguments PCompute {A B}. Arguments PAsk {A}.
Fixpoint pbind {A B} (p : proc A) (f : A -> proc B) : proc B :=
  match p with
  | PDone (Ret a) => f a
  | PDone (Panic e) => PDone (Panic e)
  | PCompute t k => PCompute t (fun b => pbind (k b) f)
  | PAsk q0 q1 k => PAsk q0 q1 (fun r0 r1 => pbind (k r0 r1) f)
  end.
Notation "'letp' x ':=' m 'in' k" := (pbind m (fun x => k))
  (at level 200, x name, m at level 100, k at level 200, right associativity).
Notation "'letp' ' p ':=' m 'in' k" := (pbind m (fun x => match x with p => k end))
  (at level 200, p pattern, m at level 100, k at level 200, right associativity).
Notation "'dop' m ';' k" := (pbind m (fun _ => k))
  (at level 200, m at level 100, k at level 200, right associativity).

(** the same request to both aggregators, answered with "Done" *)
Definition ask_done (q0 q1 : request) : proc unit := PAsk q0 q1 (fun _ _ => PDone (Ret tt)).

(** driver.rs:246-261 *)
Definition reset_p (cfg : config) (vk : bytes) : proc unit := ask_done (QReset vk (cfg_hist cfg)) (QReset vk (cfg_hist cfg)).
(** driver.rs:272-338 *)
Definition add_reports_p (all_reports : list plaintext_report) (chs : list choice) : proc unit :=
  letp ups := PDone (mapM (make_upload all_reports) chs) in
  ask_done (QAddReportShares (map fst ups)) (QAddReportShares (map snd ups)).
(** driver.rs:725-748 *)
Fixpoint upload_batches_p (all_reports : list plaintext_report) (sizes : list nat) (chs : list choice) : proc unit :=
  match sizes with
  | [] => PDone (Ret tt)
  | n :: sizes' =>
      dop add_reports_p all_reports (firstn n chs);
      upload_batches_p all_reports sizes' (skipn n chs)
  end.
Definition upload_p (fuel : nat) (cfg : config) (all_reports : list plaintext_report) (chs : list choice) : proc unit :=
  letp sizes := PDone (upload_sizes fuel (length chs) (cfg_add_batch cfg)) in
  upload_batches_p all_reports sizes chs.

(** driver.rs:347-376 *)
Fixpoint flp_loop_p (fuel : nat) (E : env) (cfg : config) (num_clients start : nat) (keep : list bool) : proc (list bool) :=
  if start <? num_clients then
    match fuel with
    | O => PDone (Panic PFuel)
    | S fuel' =>
        let stop := Nat.min num_clients (start + cfg_query_batch cfg) in
        PAsk (QRunFlpQueries start stop) (QRunFlpQueries start stop) (fun r0 r1 =>
        match r0, r1 with
        | AFields v0, AFields v1 =>
            dop PDone (debug_assert (dbg E) (length v0 =? length v1));
            letp ks := PDone (mapM (flp_decide_pair E (cfg_hist cfg)) (combine v0 v1)) in
            flp_loop_p fuel' E cfg num_clients (start + cfg_query_batch cfg) (keep ++ ks)
        | _, _ => PDone (Panic PExplicit)
        end)
    end
  else PDone (Ret keep).
(** driver.rs:340-385 *)
Definition flp_queries_p (fuel : nat) (E : env) (cfg : config) (num_clients : nat) : proc unit :=
  letp keep := flp_loop_p fuel E cfg num_clients 0 [] in
  ask_done (QApplyFlpResults keep) (QApplyFlpResults keep).

(** driver.rs:401-454 *)
Fixpoint level_loop_p (fuel : nat) (len num_clients : nat) (thr : Z) (split : nat) (malicious : list nat) (is_last : bool)
  : proc (list bool) :=
  match fuel with
  | O => PDone (Panic PFuel)
  | S fuel' =>
      let q := QTreeCrawl split malicious is_last in
      PAsk q q (fun a0 a1 =>
      match a0, a1 with
      | ACrawl v0 r0 i0, ACrawl v1 r1 i1 =>
          dop PDone (assert_ (length v0 =? length v1));
          letp keep := PDone (keep_values len thr v0 v1) in
          if length r0 =? 0 then PDone (Ret keep) else
          letp malicious := PDone (mismatches (v0, r0, i0) (v1, r1, i1)) in
          match malicious with
          | [] => PDone (Ret keep)
          | _ =>
              if num_clients <=? split then
                if is_last then PDone (Ret keep)
                else level_loop_p fuel' len num_clients thr split malicious true
              else level_loop_p fuel' len num_clients thr (split * 2) malicious is_last
          end
      | _, _ => PDone (Panic PExplicit)
      end)
  end.
(** driver.rs:387-463 *)
Definition run_level_p (fuel : nat) (cfg : config) (num_clients : nat) : proc unit :=
  letp keep := level_loop_p fuel (cfg_hist cfg) num_clients (threshold cfg) 1 [] false in
  ask_done (QTreePrune keep) (QTreePrune keep).

(** driver.rs:494-512 *)
Fixpoint proofs_loop_p (fuel : nat) (cfg : config) (num_clients start : nat) : proc unit :=
  if start <? num_clients then
    match fuel with
    | O => PDone (Panic PFuel)
    | S fuel' =>
        let stop := Nat.min num_clients (start + cfg_query_batch cfg) in
        PAsk (QGetProofs start stop) (QGetProofs start stop) (fun r0 r1 =>
        match r0, r1 with
        | AProofs h0, AProofs h1 =>
            dop PDone (assert_ (length h0 =? length h1));
            dop PDone (assert_ (forallb (fun hh => bytes_eqb (fst hh) (snd hh)) (combine h0 h1)));
            proofs_loop_p fuel' cfg num_clients (start + cfg_query_batch cfg)
        | _, _ => PDone (Panic PExplicit)
        end)
    end
  else PDone (Ret tt).
(** driver.rs:465-537 *)
Definition run_level_last_p (fuel : nat) (cfg : config) (num_clients : nat) : proc (list result) :=
  PAsk QTreeCrawlLast QTreeCrawlLast (fun r0 r1 =>
  match r0, r1 with
  | AFields v0, AFields v1 =>
      dop PDone (assert_ (length v0 =? length v1));
      letp keep := PDone (keep_values (cfg_hist cfg) (threshold cfg) v0 v1) in
      dop proofs_loop_p fuel cfg num_clients 0;
      dop ask_done (QTreePrune keep) (QTreePrune keep);
      PAsk QFinalShares QFinalShares (fun r0 r1 =>
      match r0, r1 with
      | AFinal f0, AFinal f1 => PDone (final_values (cfg_hist cfg) f0 f1)
      | _, _ => PDone (Panic PExplicit)
      end)
  | _, _ => PDone (Panic PExplicit)
  end).
(** driver.rs:755-766 *)
Fixpoint levels_loop_p (fuel : nat) (E : env) (cfg : config) (num_clients : nat) (first : bool) (levels : nat) : proc unit :=
  match levels with
  | O => PDone (Ret tt)
  | S levels' =>
      dop (if first then flp_queries_p fuel E cfg num_clients else PDone (Ret tt));
      dop run_level_p fuel cfg num_clients;
      levels_loop_p fuel E cfg num_clients false levels'
  end.
(** driver.rs:752-768 *)
Definition run_whh_p (fuel : nat) (E : env) (cfg : config) (num_clients : nat) : proc (list result) :=
  dop ask_done QTreeInit QTreeInit;
  letp bits := PDone (unwrap (cfg_bits cfg)) in
  if bits =? 0 then PDone (Panic PArith) else
  dop levels_loop_p fuel E cfg num_clients true (bits - 1);
  run_level_last_p fuel cfg num_clients.
(** main, driver.rs:708-768; the reports are generated by the driver's threads, driver.rs:126-215 *)
Definition main_whh_p (fuel : nat) (E : env) (cfg : config) (clients : list client) (vk : bytes) (chs : list choice) : proc (list result) :=
  if negb (hist_ok (cfg_hist cfg)) then PDone (Panic PUnwrap) else
  if length clients =? 0 then PDone (Panic PAssert) else
  PCompute (gen_reports_t E (cfg_hist cfg) clients) (fun reports =>
  dop reset_p cfg vk;
  dop upload_p fuel cfg reports chs;
  run_whh_p fuel E cfg (length chs)).

(** driver.rs:547-609 *)
Definition abm_batch_p (E : env) (cfg : config) (attrs : list (list bool)) (start stop : nat) : proc (list (list bool * list fld)) :=
  let q := QAbmValidate attrs start stop in
  PAsk q q (fun r0 r1 =>
  match r0, r1 with
  | AAbm r0, AAbm r1 =>
      dop PDone (assert_ (length r0 =? stop - start));
      dop PDone (assert_ (length r1 =? stop - start));
      letp rejected := PDone (abm_rejected E (cfg_hist cfg) start (combine r0 r1)) in
      let q := QAbmResult rejected (length attrs) start stop in
      PAsk q q (fun r0 r1 =>
      match r0, r1 with
      | AFields a0, AFields a1 => PDone (Ret (combine attrs (add_all a0 a1)))
      | _, _ => PDone (Panic PExplicit)
      end)
  | _, _ => PDone (Panic PExplicit)
  end).
(** driver.rs:539-612 *)
Fixpoint abm_batches_p (E : env) (cfg : config) (attrs : list (list bool)) (num_clients : nat) (starts : list nat)
  : proc (list (list (list bool * list fld))) :=
  match starts with
  | [] => PDone (Ret [])
  | start :: starts' =>
      let stop := Nat.min num_clients (start + cfg_query_batch cfg) in
      letp t := abm_batch_p E cfg attrs start stop in
      letp ts := abm_batches_p E cfg attrs num_clients starts' in
      PDone (Ret (t :: ts))
  end.
(** main, driver.rs:708-748,770-794 *)
Definition main_abm_p (fuel : nat) (E : env) (cfg : config) (clients : list client) (vk : bytes) (chs : list choice)
           (samples : list nat) (order : list (list bool) -> list (list bool)) : proc (list (list (list bool * list fld))) :=
  if negb (hist_ok (cfg_hist cfg)) then PDone (Panic PUnwrap) else
  if length clients =? 0 then PDone (Panic PAssert) else
  PCompute (gen_reports_t E (cfg_hist cfg) clients) (fun reports =>
  dop reset_p cfg vk;
  dop upload_p fuel cfg reports chs;
  letp attrs := PDone (sample_attributes reports samples) in
  letp starts := PDone (step_by (length chs) (cfg_query_batch cfg)) in
  abm_batches_p E cfg (order attrs) (length chs) starts).

(** driver.rs:624-683 *)
Definition pm_batch_p (E : env) (cfg : config) (start stop : nat) : proc (list Z * Z) :=
  let q := QPmValidate start stop in
  PAsk q q (fun r0 r1 =>
  match r0, r1 with
  | APm r0, APm r1 =>
      dop PDone (assert_ (length r0 =? stop - start));
      dop PDone (assert_ (length r1 =? stop - start));
      PAsk (QPmResult r1 start stop) (QPmResult r0 start stop) (fun x0 x1 =>
      match x0, x1 with
      | APmResult a0 n0, APmResult a1 n1 =>
          dop PDone (assert_ (n0 =? n1)%Z);
          dop PDone (count_ok E (stop - start) n0);
          letp res := PDone (unwrap (p3_unshard (cfg_hist cfg) a0 a1)) in
          PDone (Ret (res, n0))
      | _, _ => PDone (Panic PExplicit)
      end)
  | _, _ => PDone (Panic PExplicit)
  end).
(** driver.rs:621-686 *)
Fixpoint pm_batches_p (E : env) (cfg : config) (num_clients : nat) (starts : list nat) : proc (list (list Z * Z)) :=
  match starts with
  | [] => PDone (Ret [])
  | start :: starts' =>
      let stop := Nat.min num_clients (start + cfg_query_batch cfg) in
      letp t := pm_batch_p E cfg start stop in
      letp ts := pm_batches_p E cfg num_clients starts' in
      PDone (Ret (t :: ts))
  end.
(** main, driver.rs:708-748,795-797; sharding does not use the generator of prg.rs *)
Definition main_pm_p (fuel : nat) (E : env) (shard : sharding) (cfg : config) (clients : list pm_client) (vk : bytes) (chs : list choice)
  : proc (list (list Z * Z)) :=
  if negb (hist_ok (cfg_hist cfg)) then PDone (Panic PUnwrap) else
  if length clients =? 0 then PDone (Panic PAssert) else
  PCompute (par_map (fun cl => pure (gen_prio_report shard (cfg_hist cfg) cl)) clients) (fun reports =>
  dop reset_p cfg vk;
  dop upload_p fuel cfg reports chs;
  if negb (hist_ok (cfg_hist cfg)) then PDone (Panic PUnwrap) else
  letp starts := PDone (step_by (length chs) (cfg_query_batch cfg)) in
  pm_batches_p E cfg (length chs) starts).

(** *** the system *)
Inductive driver_state (A : Type) : Type :=
| Busy (p : proc A)                                  (* with this left to do *)
| Awaiting (k : response -> response -> proc A).     (* try_join! of two requests *)
Arguments Busy {A}. Arguments Awaiting {A}.
Record system (A : Type) := { y_driver : driver_state A; y_threads : threads; y_m0 : machine; y_m1 : machine }.
Arguments y_driver {A}. Arguments y_threads {A}. Arguments y_m0 {A}. Arguments y_m1 {A}. Arguments Build_system {A}.

(** A request arrives.  The driver waits for the answer before it sends the next one; the requests answered
    before are dropped. *)
Definition receive (m : machine) (q : request) : machine :=
  {| m_id := m_id m; m_bits := m_bits m; m_coll := m_coll m; m_poison := m_poison m; m_locked := m_locked m;
     m_threads := m_threads m; m_stages := [Received q] |}.
(** One step of the driver.  try_join! returns as soon as one request failed; a handler that panicked never
    answers, and the connection error makes unwrap() panic. *)
Inductive driver_step (E : env) {A : Type} : system A -> system A -> Prop :=
| d_compute B (t t' : task B) k thr thr' m0 m1 : step E thr t thr' t' ->
    driver_step E (Build_system (Busy (PCompute t k)) thr m0 m1) (Build_system (Busy (PCompute t' k)) thr' m0 m1)
| d_result B (b : B) k thr m0 m1 :
    driver_step E (Build_system (Busy (PCompute (TDone (Ret b)) k)) thr m0 m1) (Build_system (Busy (k b)) thr m0 m1)
| d_panic B e (k : B -> proc A) thr m0 m1 :
    driver_step E (Build_system (Busy (PCompute (TDone (Panic e)) k)) thr m0 m1) (Build_system (Busy (PDone (Panic e))) thr m0 m1)
| d_send q0 q1 k thr m0 m1 :
    driver_step E (Build_system (Busy (PAsk q0 q1 k)) thr m0 m1) (Build_system (Awaiting k) thr (receive m0 q0) (receive m1 q1))
| d_answers k thr m0 m1 r0 r1 : m_stages m0 = [Answered (Ret r0)] -> m_stages m1 = [Answered (Ret r1)] ->
    driver_step E (Build_system (Awaiting k) thr m0 m1) (Build_system (Busy (k r0 r1)) thr m0 m1)
| d_failed0 k thr m0 m1 e : m_stages m0 = [Answered (Panic e)] ->
    driver_step E (Build_system (Awaiting k) thr m0 m1) (Build_system (Busy (PDone (Panic e))) thr m0 m1)
| d_failed1 k thr m0 m1 e : m_stages m1 = [Answered (Panic e)] ->
    driver_step E (Build_system (Awaiting k) thr m0 m1) (Build_system (Busy (PDone (Panic e))) thr m0 m1).
(** one step of the driver or of an aggregator *)
Inductive system_step (E : env) {A : Type} : system A -> system A -> Prop :=
| y_by_driver y y' : driver_step E y y' -> system_step E y y'
| y_by_0 d thr m0 m0' m1 : machine_step E m0 m0' -> system_step E (Build_system d thr m0 m1) (Build_system d thr m0' m1)
| y_by_1 d thr m0 m1 m1' : machine_step E m1 m1' -> system_step E (Build_system d thr m0 m1) (Build_system d thr m0 m1').
Inductive system_steps (E : env) {A : Type} : system A -> system A -> Prop :=
| y_none y : system_steps E y y
| y_more y y1 y2 : system_step E y y1 -> system_steps E y1 y2 -> system_steps E y y2.
(** a driver about to start, and two aggregators with no request under way *)
Definition system_start {A} (p : proc A) (thr thr0 thr1 : threads) (s0 s1 : server) : system A :=
  {| y_driver := Busy p; y_threads := thr; y_m0 := machine_start s0 thr0 []; y_m1 := machine_start s1 thr1 [] |}.
