(** Model of /repo/src/bin/server.rs: the RPC handlers of one aggregator, including the mutex that
    protects the collector and is poisoned when a handler panics while holding it. *)
From Verif Require Import Base Field Util Env Prg Vidpf Merkle Collect.

(** src/rpc.rs:9-84  request types *)
Inductive request :=
| QReset (verify_key : bytes) (hist_buckets : nat)
| QAddReportShares (report_shares : list report_share)
| QTreeInit
| QRunFlpQueries (start stop : nat)
| QApplyFlpResults (keep : list bool)
| QTreeCrawl (split_by : nat) (malicious : list nat) (is_last : bool)
| QTreeCrawlLast
| QGetProofs (start stop : nat)
| QTreePrune (keep : list bool)
| QFinalShares
| QAbmValidate (attributes : list (list bool)) (start stop : nat)
| QAbmResult (rejected : list nat) (num_attributes start stop : nat)
| QPmValidate (start stop : nat)
| QPmResult (peer_prep_shares : list bytes) (start stop : nat).

(** src/rpc.rs:86-143  response types *)
Inductive response :=
| ADone
| AFields (v : list (list fld))
| ACrawl (cnt_values : list (list fld)) (mtree_roots : list bytes) (mtree_indices : list nat)
| AProofs (p : list bytes)
| AFinal (r : list result)
| AAbm (v : list (list fld * bytes))
| APm (prep_shares : list bytes)
| APmResult (agg_share : list fld) (rejected : Z).

(** src/bin/server.rs:39-45  CollectorServer; [s_poison] is the state of the mutex *)
Record server := { s_id : Z; s_bits : option nat; s_coll : coll; s_poison : bool }.
Definition set_coll (s : server) (c : coll) : server :=
  {| s_id := s_id s; s_bits := s_bits s; s_coll := c; s_poison := s_poison s |}.
Definition set_poison (s : server) : server :=
  {| s_id := s_id s; s_bits := s_bits s; s_coll := s_coll s; s_poison := true |}.

(** Histogram::new(length, 2) of prio, called by src/lib.rs:120-130: the accepted lengths *)
Definition hist_ok (len : nat) : bool := negb (len =? 0) && (N.of_nat len <? 4294967295)%N.

(** src/bin/server.rs:334-336 main: initial state for a given config *)
Definition server_start (id : Z) (bits : option nat) (hist : nat) : server :=
  {| s_id := id; s_bits := bits; s_coll := coll_new hist id bits (repeat 0%N 16); s_poison := false |}.

(** body of the closure src/bin/server.rs:159-189 for one report *)
Definition abm_validate_one (E : env) (c : coll) (attrs : list (list bool)) (i : nat)
  : outcome (nat * list (list fld) * list fld * bytes) :=
  let! hr := index (c_reports c) i in
  let! k := unwrap_vidpf_key (snd hr) in
  let! '(values_share, beta_share, tr) := eval_tree E k attrs (c_len c) [] in
  let! joint_rand := flp_joint_rand E c i in
  let! query_rand := flp_query_rand E c i in
  let! proof := unwrap_flp_proof_share (snd hr) in
  let! verifier_share := unwrap (flp_query E (c_len c) beta_share proof query_rand joint_rand 2) in
  Ret (i, values_share, verifier_share, blake3 E tr).

(** src/bin/server.rs:156-198, after the lock is taken.  Vec::with_capacity(end - start) wraps and
    panics when end < start. *)
Definition abm_validate (E : env) (c : coll) (attrs : list (list bool)) (start stop : nat)
  : outcome (coll * list (list fld * bytes)) :=
  if stop <? start then Panic PArith else
  let! results := mapM (abm_validate_one E c attrs) (seq start (stop - start)) in
  let c' := set_abm c (fold_left (fun m r => let '(i, vs, _, _) := r in m_insert m i vs) results (c_abm c)) in
  Ret (c', map (fun r => let '(_, _, ver, pf) := r in (ver, pf)) results).

(** src/bin/server.rs:209-214: the removal sits inside debug_assert! *)
Definition abm_reject (E : env) (m : list (nat * list (list fld))) (rejected : list nat)
  : outcome (list (nat * list (list fld))) :=
  foldM (fun m i =>
           if dbg E then
             match m_get m i with
             | Some _ => Ret (m_remove m i)
             | None => Panic PDebugAssert
             end
           else Ret m) m rejected.

(** zip over attributes, src/bin/server.rs:219-221 *)
Fixpoint add_all (agg vals : list (list fld)) : list (list fld) :=
  match agg, vals with
  | a :: agg', v :: vals' => vec_add a v :: add_all agg' vals'
  | _, _ => agg
  end.

(** src/bin/server.rs:207-224, after the lock is taken *)
Definition abm_result (E : env) (c : coll) (rejected : list nat) (num_attributes : nat)
  : outcome (coll * list (list fld)) :=
  let! m := abm_reject E (c_abm c) rejected in
  let agg := fold_left (fun agg kv => add_all agg (snd kv)) m (repeat (zeros (c_len c)) num_attributes) in
  Ret (set_abm c m, agg).

(** floor of the square root: (num_buckets as f64).sqrt() as usize, src/lib.rs:30 *)
Definition chunk_length_plain (len : nat) : nat := Nat.sqrt len.

(** src/bin/server.rs:239-267 for one report; [agg_id] is server_id as usize *)
Definition pm_validate_one (E : env) (c : coll) (agg_id i : nat) : outcome (nat * (bytes * bytes)) :=
  let! hr := index (c_reports c) i in
  match snd hr with
  | RSPrio3 nonce pub inp =>
      let! sp := unwrap (p3_prep_init E (c_len c) (c_vk c) agg_id nonce pub inp) in
      Ret (i, sp)
  | RSMastic _ _ _ _ => Panic PExplicit
  end.

(** src/bin/server.rs:233-276; Prio3::new_histogram(2, len, chunk).unwrap() needs hist_ok len and a
    positive chunk length *)
Definition pm_validate (E : env) (c : coll) (sid : Z) (start stop : nat) : outcome (coll * list bytes) :=
  if stop <? start then Panic PArith else
  if (sid <? 0)%Z then Panic PUnwrap else
  if negb (hist_ok (c_len c)) then Panic PUnwrap else
  let! results := mapM (pm_validate_one E c (Z.to_nat sid)) (seq start (stop - start)) in
  Ret (set_pm c (fold_left (fun m r => m_insert m (fst r) (snd r)) results (c_pm c)),
       map (fun r => snd (snd r)) results).

(** closure of src/bin/server.rs:291-312 for one report: consumes the state, yields the out share *)
Definition pm_result_one (E : env) (len : nat) (sid : Z) (m : list (nat * (bytes * bytes))) (i : nat) (peer : bytes)
  : outcome (list (nat * (bytes * bytes)) * option (list fld)) :=
  let! '(prep_state, prep_share) := unwrap (m_get m i) in
  let m := m_remove m i in
  let! peer := unwrap (p3_decode_share E prep_state peer) in
  let '(a, b) := if (sid =? 0)%Z then (prep_share, peer) else (peer, prep_share) in
  match p3_msg E len a b with
  | None => Ret (m, None)
  | Some msg =>
      match p3_next E len prep_state msg with
      | Some (P3Finish out) => Ret (m, Some out)
      | Some P3Continue => Panic PExplicit
      | None => Ret (m, None)
      end
  end.

Fixpoint pm_result_loop (E : env) (len : nat) (sid : Z) (m : list (nat * (bytes * bytes)))
         (l : list (nat * bytes)) : outcome (list (nat * (bytes * bytes)) * list (list fld)) :=
  match l with
  | [] => Ret (m, [])
  | (i, peer) :: l' =>
      let! '(m, o) := pm_result_one E len sid m i peer in
      let! '(m, outs) := pm_result_loop E len sid m l' in
      Ret (m, match o with Some x => x :: outs | None => outs end)
  end.

(** prio3.aggregate(&(), out_shares): accumulate, an error on a length mismatch *)
Definition p3_aggregate (len : nat) (outs : list (list fld)) : option (list fld) :=
  fold_left (fun acc o => match acc with
                          | Some a => if length o =? length a then Some (vec_add a o) else None
                          | None => None end) outs (Some (zeros len)).

(** src/bin/server.rs:285-318 *)
Definition pm_result (E : env) (c : coll) (sid : Z) (peers : list bytes) (start stop : nat)
  : outcome (coll * (list fld * Z)) :=
  if negb (hist_ok (c_len c)) then Panic PUnwrap else
  let! '(m, outs) := pm_result_loop E (c_len c) sid (c_pm c) (combine (seq start (stop - start)) peers) in
  let rejected := ((Z.of_nat stop - Z.of_nat start - Z.of_nat (length outs)) mod 2 ^ 64)%Z in
  let! agg := unwrap (p3_aggregate (c_len c) outs) in
  Ret (set_pm c m, (agg, rejected)).

(** Checks a handler performs before it takes the lock: src/bin/server.rs:155,206,232,284. *)
Definition prelock (E : env) (q : request) : outcome unit :=
  match q with
  | QAbmValidate _ start stop | QAbmResult _ _ start stop
  | QPmValidate start stop | QPmResult _ start stop => debug_assert (dbg E) (start <? stop)
  | _ => Ret tt
  end.

(** The part of each handler that runs under the lock. *)
Definition body (E : env) (s : server) (q : request) : outcome (coll * response) :=
  let c := s_coll s in
  match q with
  | QReset vk hist =>                                                    (* server.rs:49-59 *)
      if hist_ok hist then Ret (coll_new hist (s_id s) (s_bits s) vk, ADone) else Panic PUnwrap
  | QAddReportShares rs =>                                               (* server.rs:61-70 *)
      Ret (fold_left add_report_share rs c, ADone)
  | QTreeInit => let! c' := tree_init c in Ret (c', ADone)               (* server.rs:72-78 *)
  | QTreeCrawl split mal last =>                                         (* server.rs:80-95 *)
      let! '(c', (v, r, i)) := tree_crawl E c split mal last in Ret (c', ACrawl v r i)
  | QRunFlpQueries start stop =>                                         (* server.rs:97-106 *)
      do! debug_assert (dbg E) (start <? stop);
      let! v := run_flp_queries E c start stop in Ret (c, AFields v)
  | QApplyFlpResults keep =>                                             (* server.rs:108-112 *)
      let! c' := apply_flp_results c keep in Ret (c', ADone)
  | QTreeCrawlLast =>                                                    (* server.rs:114-126 *)
      let! '(c', v) := tree_crawl_last E c in Ret (c', AFields v)
  | QGetProofs start stop =>                                             (* server.rs:128-133 *)
      do! debug_assert (dbg E) (start <? stop);
      Ret (c, AProofs (get_proofs c start stop))
  | QTreePrune keep =>                                                   (* server.rs:135-139 *)
      let! c' := tree_prune c keep in Ret (c', ADone)
  | QFinalShares => Ret (c, AFinal (final_shares c))                     (* server.rs:141-148 *)
  | QAbmValidate attrs start stop =>                                     (* server.rs:150-199 *)
      let! '(c', v) := abm_validate E c attrs start stop in Ret (c', AAbm v)
  | QAbmResult rej n _ _ =>                                              (* server.rs:201-225 *)
      let! '(c', v) := abm_result E c rej n in Ret (c', AFields v)
  | QPmValidate start stop =>                                            (* server.rs:227-277 *)
      let! '(c', v) := pm_validate E c (s_id s) start stop in Ret (c', APm v)
  | QPmResult peers start stop =>                                        (* server.rs:279-319 *)
      let! '(c', (a, r)) := pm_result E c (s_id s) peers start stop in Ret (c', APmResult a r)
  end.

(** One request: pre-lock checks, lock().unwrap(), body; a panic under the lock poisons it.  A handler
    that panics may have modified the collector before, but a poisoned collector is never looked at
    again, so we keep the old value. *)
Definition handle (E : env) (s : server) (q : request) : server * outcome response :=
  match prelock E q with
  | Panic p => (s, Panic p)
  | Ret _ =>
      if s_poison s then (s, Panic PPoison) else
      match body E s q with
      | Ret (c, r) => (set_coll s c, Ret r)
      | Panic p => (set_poison s, Panic p)
      end
  end.

(** A sequence of requests to one aggregator, with the answers. *)
Fixpoint handle_all (E : env) (s : server) (qs : list request) : server * list (outcome response) :=
  match qs with
  | [] => (s, [])
  | q :: qs' => let '(s1, a) := handle E s q in
                let '(s2, l) := handle_all E s1 qs' in (s2, a :: l)
  end.
