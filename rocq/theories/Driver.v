(** Model of /repo/src/bin/driver.rs: the client/leader program, talking to two aggregators. *)
From Verif Require Import Base Field Util Env Prg Vidpf Merkle Collect Server.

(** The parts of config::Config (src/config.rs:29-58) the run depends on.  [cfg_thr] is the value of
    (threshold * (num_clients as f64)) as u64, driver.rs:395,474. *)
Record config := {
  cfg_bits : option nat;        (* data_bits *)
  cfg_hist : nat;               (* hist_buckets *)
  cfg_add_batch : nat;          (* add_report_share_batch_size *)
  cfg_query_batch : nat;        (* query_flp_batch_size *)
  cfg_thr : Z }.

(** driver.rs:395 core::cmp::max(1, ..) *)
Definition threshold (cfg : config) : Z := Z.max 1 (cfg_thr cfg).

(** driver.rs:50-68  PlaintextReport *)
Inductive plaintext_report :=
| PRMastic (nonce : bytes) (keys : vidpf_key * vidpf_key) (proofs : list fld * list fld)
           (jr_parts : bytes * bytes) (alpha : list bool)
| PRPrio3 (nonce public_share input_share0 input_share1 : bytes).

(** All random choices and inputs of one simulated Mastic client (driver.rs:133-143,172-178). *)
Record client := {
  cl_nonce : bytes;
  cl_bucket : nat;
  cl_alpha : list bool;
  cl_seed0 : bytes;
  cl_seed1 : bytes;
  cl_prove_rand : list fld;
  cl_proof_rand : nat -> fld }.

(** element-wise difference, driver.rs:179-183 *)
Fixpoint zip_sub (a b : list fld) : list fld :=
  match a, b with x :: a', y :: b' => fsub x y :: zip_sub a' b' | _, _ => [] end.

(** driver.rs:139-195  one Mastic report *)
Definition gen_report (E : env) (len : nat) (cl : client) : outcome plaintext_report :=
  let! beta := unwrap (encode_measurement len (cl_bucket cl)) in
  let! '(key_0, key_1) := gen E (cl_seed0 cl) (cl_seed1 cl) (cl_alpha cl) beta in
  let jr0 := xof_bytes E (root_seed key_0) (repeat 0%N 16) (0%N :: cl_nonce cl) 16 in
  let jr1 := xof_bytes E (root_seed key_1) (repeat 0%N 16) (1%N :: cl_nonce cl) 16 in
  let joint_rand := xof_field E jr0 jr1 [] (flp_joint_rand_len E len) in
  let! proof := unwrap (flp_prove E len beta (cl_prove_rand cl) joint_rand) in
  let proof_0 := map (cl_proof_rand cl) (seq 0 (length proof)) in
  let proof_1 := zip_sub proof proof_0 in
  Ret (PRMastic (cl_nonce cl) (key_0, key_1) (proof_0, proof_1) (jr0, jr1) (cl_alpha cl)).

(** driver.rs:72-83 *)
Definition unwrap_alpha (r : plaintext_report) : outcome (list bool) :=
  match r with PRMastic _ _ _ _ a => Ret a | PRPrio3 _ _ _ _ => Panic PExplicit end.

(** driver.rs:85-124 *)
Definition to_shares (r : plaintext_report) : report_share * report_share :=
  match r with
  | PRMastic nonce keys proofs jr _ =>
      (RSMastic nonce (fst keys) (fst proofs) jr, RSMastic nonce (snd keys) (snd proofs) jr)
  | PRPrio3 nonce pub i0 i1 => (RSPrio3 nonce pub i0, RSPrio3 nonce pub i1)
  end.

(** driver.rs:288-316  the tweak applied to the second share of a simulated malicious client.
    [coin] is the rng.gen() of line 296.  get_root_seed() returns a clone (vidpf.rs:247-249), so the
    assignment of line 299 changes a temporary only. *)
Definition get_root_seed (k : vidpf_key) : bytes := root_seed k.
Definition tamper (coin : bool) (r : report_share) : outcome report_share :=
  match r with
  | RSMastic nonce k proof jr =>
      if coin then
        let! b := index (get_root_seed k) 0 in
        let _tmp := update 0 (N.lxor b 1) (get_root_seed k) in
        Ret (RSMastic nonce k proof jr)
      else
        let! x := index proof 0 in
        Ret (RSMastic nonce k (update 0 (fadd x (of_N 1337)) proof) jr)
  | RSPrio3 nonce pub inp =>
      let! b := index inp 0 in
      Ret (RSPrio3 nonce pub (update 0 (N.lxor b 1) inp))
  end.

(** The random choices for one uploaded report: zipf.sample() - 1, malicious?, coin *)
Record choice := { ch_idx : nat; ch_malicious : bool; ch_coin : bool }.

(** loop body driver.rs:284-320 *)
Definition make_upload (all_reports : list plaintext_report) (ch : choice) : outcome (report_share * report_share) :=
  let! r := index all_reports (ch_idx ch) in
  let '(r0, r1) := to_shares r in
  let! r1 := (if ch_malicious ch then tamper (ch_coin ch) r1 else Ret r1) in
  Ret (r0, r1).

(** try_join!(client_0.f(req_0), client_1.f(req_1)).unwrap(): both aggregators handle their request
    (independently of each other); the driver fails unless both answer. *)
Definition call2 (E : env) (s0 s1 : server) (q0 q1 : request)
  : outcome (server * server * (response * response)) :=
  let '(s0', a0) := handle E s0 q0 in
  let '(s1', a1) := handle E s1 q1 in
  let! r0 := a0 in
  let! r1 := a1 in
  Ret (s0', s1', (r0, r1)).

(** requests answered with "Done" *)
Definition call2_done (E : env) (s0 s1 : server) (q0 q1 : request) : outcome (server * server) :=
  let! '(s0, s1, r) := call2 E s0 s1 q0 q1 in Ret (s0, s1).

(** driver.rs:246-261 *)
Definition reset_servers (E : env) (cfg : config) (vk : bytes) (s0 s1 : server) : outcome (server * server) :=
  call2_done E s0 s1 (QReset vk (cfg_hist cfg)) (QReset vk (cfg_hist cfg)).

(** driver.rs:272-338  one batch *)
Definition add_reports (E : env) (all_reports : list plaintext_report) (chs : list choice) (s0 s1 : server)
  : outcome (server * server) :=
  let! ups := mapM (make_upload all_reports) chs in
  call2_done E s0 s1 (QAddReportShares (map fst ups)) (QAddReportShares (map snd ups)).

(** driver.rs:730-743: the inner loop over reqs_in_flight = 1000 slots; yields the remaining count and
    the batch sizes pushed *)
Fixpoint upload_inner (slots left batch : nat) : nat * list nat :=
  match slots with
  | O => (left, [])
  | S slots' =>
      let this_batch := Nat.min left batch in
      let '(left', sizes) := upload_inner slots' (left - this_batch) batch in
      (left', if 0 <? this_batch then this_batch :: sizes else sizes)
  end.
(** driver.rs:725-748: the outer while loop; the futures created by add_reports are lazy and awaited
    one after the other in the order they were pushed *)
Fixpoint upload_sizes (fuel left batch : nat) : outcome (list nat) :=
  if 0 <? left then
    match fuel with
    | O => Panic PFuel
    | S fuel' =>
        let '(left', sizes) := upload_inner 1000 left batch in
        let! rest := upload_sizes fuel' left' batch in Ret (sizes ++ rest)
    end
  else Ret [].
Fixpoint upload_batches (E : env) (all_reports : list plaintext_report) (sizes : list nat) (chs : list choice)
         (s0 s1 : server) : outcome (server * server) :=
  match sizes with
  | [] => Ret (s0, s1)
  | n :: sizes' =>
      let! '(s0, s1) := add_reports E all_reports (firstn n chs) s0 s1 in
      upload_batches E all_reports sizes' (skipn n chs) s0 s1
  end.
Definition upload (fuel : nat) (E : env) (cfg : config) (all_reports : list plaintext_report) (chs : list choice)
           (s0 s1 : server) : outcome (server * server) :=
  let! sizes := upload_sizes fuel (length chs) (cfg_add_batch cfg) in
  upload_batches E all_reports sizes chs s0 s1.

(** element-wise sum of verifier shares, driver.rs:364-368 *)
Fixpoint zip_add (a b : list fld) : list fld :=
  match a, b with x :: a', y :: b' => fadd x y :: zip_add a' b' | _, _ => [] end.

(** driver.rs:363-371 *)
Definition flp_decide_pair (E : env) (len : nat) (vv : list fld * list fld) : outcome bool :=
  unwrap (flp_decide E len (zip_add (fst vv) (snd vv))).

(** driver.rs:347-376: the query loop; returns [keep] *)
Fixpoint flp_loop (fuel : nat) (E : env) (cfg : config) (s0 s1 : server) (num_clients start : nat) (keep : list bool)
  : outcome (server * server * list bool) :=
  if start <? num_clients then
    match fuel with
    | O => Panic PFuel
    | S fuel' =>
        let stop := Nat.min num_clients (start + cfg_query_batch cfg) in
        let! '(s0, s1, rr) := call2 E s0 s1 (QRunFlpQueries start stop) (QRunFlpQueries start stop) in
        match rr with
        | (AFields v0, AFields v1) =>
            do! debug_assert (dbg E) (length v0 =? length v1);
            let! ks := mapM (flp_decide_pair E (cfg_hist cfg)) (combine v0 v1) in
            flp_loop fuel' E cfg s0 s1 num_clients (start + cfg_query_batch cfg) (keep ++ ks)
        | _ => Panic PExplicit (* ruled out by the RPC types *)
        end
    end
  else Ret (s0, s1, keep).

(** driver.rs:340-385  run_flp_queries *)
Definition drv_run_flp_queries (fuel : nat) (E : env) (cfg : config) (s0 s1 : server) (num_clients : nat)
  : outcome (server * server) :=
  let! '(s0, s1, keep) := flp_loop fuel E cfg s0 s1 num_clients 0 [] in
  call2_done E s0 s1 (QApplyFlpResults keep) (QApplyFlpResults keep).

(** answer of one aggregator to tree_crawl *)
Definition crawl_answer : Type := list (list fld) * list bytes * list nat.

(** driver.rs:429-436: indices where the roots differ *)
Definition mismatches (a0 a1 : crawl_answer) : outcome (list nat) :=
  let '(_, r0, i0) := a0 in
  let '(_, r1, i1) := a1 in
  foldM (fun acc i =>
           let! x0 := index r0 i in
           let! x1 := index r1 i in
           if bytes_eqb x0 x1 then Ret acc else
           let! j0 := index i0 i in
           let! j1 := index i1 i in
           do! assert_ (j0 =? j1);
           Ret (acc ++ [j0]))
        [] (seq 0 (length r0)).

(** driver.rs:401-454: the loop of run_level.  [ask] sends a TreeCrawlRequest to both aggregators.
    Returns the final [keep] and the number of requests sent. *)
Fixpoint level_loop {S : Type} (fuel : nat)
         (ask : S -> nat -> list nat -> bool -> outcome (S * crawl_answer * crawl_answer))
         (len num_clients : nat) (thr : Z)
         (s : S) (split : nat) (malicious : list nat) (is_last : bool)
  : outcome (S * list bool * nat) :=
  match fuel with
  | O => Panic PFuel
  | Datatypes.S fuel' =>
      let! '(s, a0, a1) := ask s split malicious is_last in
      let '(v0, r0, i0) := a0 in
      let '(v1, r1, i1) := a1 in
      do! assert_ (length v0 =? length v1);
      let! keep := keep_values len thr v0 v1 in
      if length r0 =? 0 then Ret (s, keep, 1) else
      let! malicious := mismatches (v0, r0, i0) (v1, r1, i1) in
      match malicious with
      | [] => Ret (s, keep, 1)
      | _ =>
          if num_clients <=? split then
            if is_last then Ret (s, keep, 1)
            else let! '(s, k, n) := level_loop fuel' ask len num_clients thr s split malicious true in
                 Ret (s, k, n + 1)
          else let! '(s, k, n) := level_loop fuel' ask len num_clients thr s (split * 2) malicious is_last in
               Ret (s, k, n + 1)
      end
  end.

(** the two real aggregators as [ask], driver.rs:407-416 *)
Definition ask_servers (E : env) (ss : server * server) (split : nat) (malicious : list nat) (is_last : bool)
  : outcome ((server * server) * crawl_answer * crawl_answer) :=
  let q := QTreeCrawl split malicious is_last in
  let! '(s0, s1, rr) := call2 E (fst ss) (snd ss) q q in
  match rr with
  | (ACrawl v0 r0 i0, ACrawl v1 r1 i1) => Ret ((s0, s1), (v0, r0, i0), (v1, r1, i1))
  | _ => Panic PExplicit
  end.

(** driver.rs:387-463  run_level *)
Definition run_level (fuel : nat) (E : env) (cfg : config) (s0 s1 : server) (num_clients : nat)
  : outcome (server * server) :=
  let! '(ss, keep, _) := level_loop fuel (ask_servers E) (cfg_hist cfg) num_clients (threshold cfg)
                                    (s0, s1) 1 [] false in
  call2_done E (fst ss) (snd ss) (QTreePrune keep) (QTreePrune keep).

(** driver.rs:494-512: the proof comparison loop *)
Fixpoint proofs_loop (fuel : nat) (E : env) (cfg : config) (s0 s1 : server) (num_clients start : nat)
  : outcome (server * server) :=
  if start <? num_clients then
    match fuel with
    | O => Panic PFuel
    | S fuel' =>
        let stop := Nat.min num_clients (start + cfg_query_batch cfg) in
        let! '(s0, s1, rr) := call2 E s0 s1 (QGetProofs start stop) (QGetProofs start stop) in
        match rr with
        | (AProofs h0, AProofs h1) =>
            do! assert_ (length h0 =? length h1);
            do! assert_ (forallb (fun hh => bytes_eqb (fst hh) (snd hh)) (combine h0 h1));
            proofs_loop fuel' E cfg s0 s1 num_clients (start + cfg_query_batch cfg)
        | _ => Panic PExplicit
        end
    end
  else Ret (s0, s1).

(** driver.rs:465-537  run_level_last up to the computation of final_values *)
Definition run_level_last (fuel : nat) (E : env) (cfg : config) (s0 s1 : server) (num_clients : nat)
  : outcome (server * server * list result) :=
  let! '(s0, s1, rr) := call2 E s0 s1 QTreeCrawlLast QTreeCrawlLast in
  match rr with
  | (AFields v0, AFields v1) =>
      do! assert_ (length v0 =? length v1);
      let! keep := keep_values (cfg_hist cfg) (threshold cfg) v0 v1 in
      let! '(s0, s1) := proofs_loop fuel E cfg s0 s1 num_clients 0 in
      let! '(s0, s1) := call2_done E s0 s1 (QTreePrune keep) (QTreePrune keep) in
      let! '(s0, s1, rr) := call2 E s0 s1 QFinalShares QFinalShares in
      match rr with
      | (AFinal f0, AFinal f1) =>
          let! res := final_values (cfg_hist cfg) f0 f1 in
          Ret (s0, s1, res)
      | _ => Panic PExplicit
      end
  | _ => Panic PExplicit
  end.

(** driver.rs:529-534: what is printed of final_values: the test looks at value[input_len - 1] *)
Definition printed (input_len : nat) (rs : list result) : outcome (list result) :=
  foldM (fun acc r => let! x := index (res_value r) (input_len - 1) in
                      Ret (if fpos x then acc ++ [r] else acc)) [] rs.

(** the loop of driver.rs:755-766; [first] tells whether this is level 0 *)
Fixpoint levels_loop (fuel : nat) (E : env) (cfg : config) (s0 s1 : server) (num_clients : nat)
         (first : bool) (levels : nat) : outcome (server * server) :=
  match levels with
  | O => Ret (s0, s1)
  | S levels' =>
      let! '(s0, s1) := (if first then drv_run_flp_queries fuel E cfg s0 s1 num_clients else Ret (s0, s1)) in
      let! '(s0, s1) := run_level fuel E cfg s0 s1 num_clients in
      levels_loop fuel E cfg s0 s1 num_clients false levels'
  end.

(** driver.rs:752-768  main, weighted heavy hitters, after the upload.  data_bits = 0 underflows in
    "0..data_bits - 1" (debug: panic; release: a range of 2^64-1 levels whose first crawl runs past the
    keys); modelled as a panic. *)
Definition run_whh (fuel : nat) (E : env) (cfg : config) (s0 s1 : server) (num_clients : nat)
  : outcome (server * server * list result) :=
  let! '(s0, s1) := call2_done E s0 s1 QTreeInit QTreeInit in
  let! bits := unwrap (cfg_bits cfg) in
  if bits =? 0 then Panic PArith else
  let! '(s0, s1) := levels_loop fuel E cfg s0 s1 num_clients true (bits - 1) in
  run_level_last fuel E cfg s0 s1 num_clients.

(** main from reset to the result, driver.rs:708-768, weighted heavy hitters.  One report is generated for each of
    the zipf_unique_buckets clients; there must be one, driver.rs:127,216. *)
Definition main_whh (fuel : nat) (E : env) (cfg : config) (clients : list client) (vk : bytes) (chs : list choice)
           (s0 s1 : server) : outcome (server * server * list result) :=
  if negb (hist_ok (cfg_hist cfg)) then Panic PUnwrap else
  if length clients =? 0 then Panic PAssert else
  let! reports := mapM (gen_report E (cfg_hist cfg)) clients in
  let! '(s0, s1) := reset_servers E cfg vk s0 s1 in
  let! '(s0, s1) := upload fuel E cfg reports chs s0 s1 in
  run_whh fuel E cfg s0 s1 (length chs).

(** driver.rs:564-578: indices pushed to [rejected] for one batch *)
Fixpoint abm_rejected (E : env) (len : nat) (i : nat) (l : list ((list fld * bytes) * (list fld * bytes)))
  : outcome (list nat) :=
  match l with
  | [] => Ret []
  | ((ver0, pf0), (ver1, pf1)) :: l' =>
      let! ok := unwrap (flp_decide E len (vec_add ver0 ver1)) in
      let! rest := abm_rejected E len (S i) l' in
      Ret ((if ok then [] else [i]) ++ (if bytes_eqb pf0 pf1 then [] else [i]) ++ rest)
  end.

(** driver.rs:547-609 for one batch *)
Definition abm_batch (E : env) (cfg : config) (s0 s1 : server) (attrs : list (list bool)) (start stop : nat)
  : outcome (server * server * list (list bool * list fld)) :=
  let q := QAbmValidate attrs start stop in
  let! '(s0, s1, rr) := call2 E s0 s1 q q in
  match rr with
  | (AAbm r0, AAbm r1) =>
      do! assert_ (length r0 =? stop - start);
      do! assert_ (length r1 =? stop - start);
      let! rejected := abm_rejected E (cfg_hist cfg) start (combine r0 r1) in
      let q := QAbmResult rejected (length attrs) start stop in
      let! '(s0, s1, rr) := call2 E s0 s1 q q in
      match rr with
      | (AFields a0, AFields a1) => Ret (s0, s1, combine attrs (add_all a0 a1))
      | _ => Panic PExplicit
      end
  | _ => Panic PExplicit
  end.

(** (0..n).step_by(batch) *)
Fixpoint steps (fuel start n batch : nat) : list nat :=
  match fuel with
  | O => []
  | S f => if start <? n then start :: steps f (start + batch) n batch else []
  end.
Definition step_by (n batch : nat) : outcome (list nat) :=
  if batch =? 0 then Panic PArith else Ret (steps n 0 n batch).

(** driver.rs:539-612  run_attribute_based_metrics; one table per batch *)
Fixpoint abm_batches (E : env) (cfg : config) (s0 s1 : server) (attrs : list (list bool)) (num_clients : nat)
         (starts : list nat) : outcome (server * server * list (list (list bool * list fld))) :=
  match starts with
  | [] => Ret (s0, s1, [])
  | start :: starts' =>
      let stop := Nat.min num_clients (start + cfg_query_batch cfg) in
      let! '(s0, s1, t) := abm_batch E cfg s0 s1 attrs start stop in
      let! '(s0, s1, ts) := abm_batches E cfg s0 s1 attrs num_clients starts' in
      Ret (s0, s1, t :: ts)
  end.
Definition run_abm (E : env) (cfg : config) (s0 s1 : server) (attrs : list (list bool)) (num_clients : nat)
  : outcome (server * server * list (list (list bool * list fld))) :=
  let! starts := step_by num_clients (cfg_query_batch cfg) in
  abm_batches E cfg s0 s1 attrs num_clients starts.

(** driver.rs:772-782: attributes from zipf samples (each in 1..=zipf_unique_buckets); the HashSet
    removes duplicates *)
Definition sample_attributes (reports : list plaintext_report) (samples : list nat) : outcome (list (list bool)) :=
  let! alphas := mapM (fun s => let! r := index reports s in unwrap_alpha r) samples in
  Ret (nodup (list_eq_dec Bool.bool_dec) alphas).

(** prio3.unshard(&(), [a0, a1], n): merge and decode to integers; an error on a length mismatch *)
Definition p3_unshard (len : nat) (a0 a1 : list fld) : option (list Z) :=
  match p3_aggregate len [a0; a1] with Some a => Some (map fval a) | None => None end.

(** driver.rs:671  end - start - rejected_count, checked in debug builds only.  The number of measurements plays no
    part in unsharding a histogram. *)
Definition count_ok (E : env) (n : nat) (rejected : Z) : outcome unit :=
  if dbg E && (Z.of_nat n <? rejected)%Z then Panic PArith else Ret tt.

(** driver.rs:624-683 for one batch *)
Definition pm_batch (E : env) (cfg : config) (s0 s1 : server) (start stop : nat)
  : outcome (server * server * (list Z * Z)) :=
  let q := QPmValidate start stop in
  let! '(s0, s1, rr) := call2 E s0 s1 q q in
  match rr with
  | (APm r0, APm r1) =>
      do! assert_ (length r0 =? stop - start);
      do! assert_ (length r1 =? stop - start);
      let! '(s0, s1, rr) := call2 E s0 s1 (QPmResult r1 start stop) (QPmResult r0 start stop) in
      match rr with
      | (APmResult a0 n0, APmResult a1 n1) =>
          do! assert_ (n0 =? n1)%Z;
          do! count_ok E (stop - start) n0;
          let! res := unwrap (p3_unshard (cfg_hist cfg) a0 a1) in
          Ret (s0, s1, (res, n0))
      | _ => Panic PExplicit
      end
  | _ => Panic PExplicit
  end.
