(** Properties C23, C31, C32, C35, C37, C45 (src/bin/driver.rs). *)
From Verif Require Import Base Field Util Env Prg Vidpf Merkle Collect Server Driver SpecCollect SpecServer SpecDriver
  DriverFacts DriverPropFacts RefEnv VidpfPropFacts ExRun.

(** C23: whatever the batch size, the decisions are those obtained by asking about each report alone,
    one per report, in order. *)
Theorem C23_flp_decisions : forall fuel E cfg s0 s1 n s0' s1' keep,
  0 < cfg_query_batch cfg -> n <= fuel -> s_poison s0 = false -> s_poison s1 = false ->
  root_of (s_coll s0) n -> root_of (s_coll s1) n ->
  flp_loop fuel E cfg s0 s1 n 0 [] = Ret (s0', s1', keep) <->
  s0' = s0 /\ s1' = s1 /\ length keep = n /\
  forall i b, nth_error keep i = Some b -> flp_verdict E (cfg_hist cfg) (s_coll s0) (s_coll s1) i b.
Proof. exact flp_decisions. Qed.
Print Assumptions C23_flp_decisions.

Theorem C23_query_batch : forall E cfg1 cfg2 s0 s1 n fuel1 fuel2 t0 t1,
  0 < cfg_query_batch cfg1 -> 0 < cfg_query_batch cfg2 -> cfg_hist cfg1 = cfg_hist cfg2 -> n <= fuel1 -> n <= fuel2 ->
  s_poison s0 = false -> s_poison s1 = false -> root_of (s_coll s0) n -> root_of (s_coll s1) n ->
  drv_run_flp_queries fuel1 E cfg1 s0 s1 n = Ret (t0, t1) -> drv_run_flp_queries fuel2 E cfg2 s0 s1 n = Ret (t0, t1).
Proof. exact flp_batch_independent. Qed.
Print Assumptions C23_query_batch.

Theorem C23_upload_batch : forall E cfg1 cfg2 reports chs s0 s1 fuel1 fuel2 t0 t1,
  0 < cfg_add_batch cfg1 -> 0 < cfg_add_batch cfg2 ->
  length chs <= fuel1 -> length chs <= fuel2 -> s_poison s0 = false -> s_poison s1 = false ->
  upload fuel1 E cfg1 reports chs s0 s1 = Ret (t0, t1) -> upload fuel2 E cfg2 reports chs s0 s1 = Ret (t0, t1).
Proof. exact upload_batch_independent. Qed.
Print Assumptions C23_upload_batch.

(** three reports (the second with a wrong proof share), queried in batches of 1 and of 2 *)
Example C23_example :
  match ex_up [bad_vidpf 0; bad_flp 1; {| ch_idx := 2; ch_malicious := false; ch_coin := true |}] with
  | Ret (s0, s1) =>
      (root_size s0 =? 3) && (root_size s1 =? 3) && negb (s_poison s0) && negb (s_poison s1) &&
      match flp_loop 20 rx (cfg2 2 1 2) s0 s1 3 0 [] , flp_loop 20 rx (cfg2 2 2 2) s0 s1 3 0 [] with
      | Ret (_, _, k1), Ret (_, _, k2) => list_eqb Bool.eqb k1 [true; false; true] && list_eqb Bool.eqb k2 [true; false; true]
      | _, _ => false
      end
  | Panic _ => false
  end = true.
Proof. exact ex_flp_batches. Qed.

(** C31: a heavy hitter whose last bucket is empty is never printed. *)
Theorem C31_refuted : forall len rs r out,
  0 < len -> last_bucket_zero len r -> printed len rs = Ret out -> ~ In r out.
Proof. exact printed_drops. Qed.
Print Assumptions C31_refuted.

(** what is printed, exactly *)
Theorem C31_printed : forall len rs, Forall (fun r => len - 1 < length (res_value r)) rs ->
  printed len rs = Ret (filter (fun r => negb (fval (nth (len - 1) (res_value r) (of_Z 0)) =? 0)%Z) rs).
Proof. exact printed_shape. Qed.
Print Assumptions C31_printed.

(** a full run: the heavy hitter 000, held by two clients, is found but not printed *)
Example C31_example :
  match ex_whh (cfg2 3 4 1) (honest_choices [4; 2; 2; 0; 4]) with
  | Ret (_, _, rs) =>
      res_eqb rs [([false; false; false], [2; 0; 2]); ([false; false; true], [0; 2; 2]); ([true; false; true], [0; 1; 1])]%Z &&
      match printed 2 rs with Ret l => res_eqb l [([false; false; true], [0; 2; 2]); ([true; false; true], [0; 1; 1])]%Z | Panic _ => false end
  | Panic _ => false
  end = true.
Proof. exact ex_printed. Qed.

(** C32: with coin = true the report of a "malicious" client is the honest one. *)
Theorem C32_refuted : forall reports ch nonce k0 k1 proofs jr alpha,
  ch_malicious ch = true -> ch_coin ch = true ->
  nth_error reports (ch_idx ch) = Some (PRMastic nonce (k0, k1) proofs jr alpha) -> length (root_seed k1) = 16 ->
  make_upload reports ch = Ret (to_shares (PRMastic nonce (k0, k1) proofs jr alpha)).
Proof. exact malicious_vidpf_is_honest. Qed.
Print Assumptions C32_refuted.

(** the other branches do change the second share *)
Theorem C32_other_branches : forall reports ch r up,
  ch_malicious ch = true -> nth_error reports (ch_idx ch) = Some r ->
  make_upload reports ch = Ret up -> (ch_coin ch = false \/ exists n p i0 i1, r = PRPrio3 n p i0 i1) ->
  fst up = fst (to_shares r) /\ snd up <> snd (to_shares r).
Proof. exact malicious_other. Qed.
Print Assumptions C32_other_branches.

Example C32_example :
  match nth_error (ex_reports rx) 1 with
  | Some (PRMastic _ (_, k1) _ _ _) =>
      (length (root_seed k1) =? 16) && is_ret (make_upload (ex_reports rx) (bad_vidpf 1)) && is_ret (make_upload (ex_reports rx) (bad_flp 1)) &&
      is_ret (make_upload [PRPrio3 [1%N] [2%N] [3%N] [4%N]] (bad_flp 0))
  | _ => false
  end = true.
Proof. vm_cast_no_check (eq_refl true). Qed.

(** C35: the largest Zipf sample panics. *)
Theorem C35_refuted : forall reports samples, In (length reports) samples ->
  exists p, sample_attributes reports samples = Panic p.
Proof. exact sample_oob. Qed.
Print Assumptions C35_refuted.

(** the other samples yield the strings at the sampled positions, which never include position 0 *)
Theorem C35_other_samples : forall reports samples,
  (forall r, In r reports -> exists a, unwrap_alpha r = Ret a) -> (forall s, In s samples -> 1 <= s < length reports) ->
  exists attrs, sample_attributes reports samples = Ret attrs /\ NoDup attrs /\
  forall a, In a attrs <-> exists i r, In i samples /\ nth_error reports i = Some r /\ unwrap_alpha r = Ret a.
Proof. exact sample_ok. Qed.
Print Assumptions C35_other_samples.

(** five reports, the first the only one with its string once the fourth is left out *)
Example C35_example :
  match sample_attributes (ex_reports rx) [2; 4; 2], sample_attributes (ex_reports rx) [1; 5] with
  | Ret l, Panic PIndex => paths_eqb l [[false; false; false]; [false; false; true]] || paths_eqb l [[false; false; true]; [false; false; false]]
  | _, _ => false
  end = true.
Proof. vm_cast_no_check (eq_refl true). Qed.

(** C37 *)
Theorem C37_upload : forall fuel E cfg reports chs s0 s1,
  0 < cfg_add_batch cfg -> length chs <= fuel -> s_poison s0 = false -> s_poison s1 = false ->
  (forall t0 t1, upload fuel E cfg reports chs s0 s1 = Ret (t0, t1) ->
     exists ups, length ups = length chs /\
     (forall i ch, nth_error chs i = Some ch -> exists up, nth_error ups i = Some up /\ make_upload reports ch = Ret up) /\
     c_reports (s_coll t0) = c_reports (s_coll s0) ++ map (fun up => (true, fst up)) ups /\
     c_reports (s_coll t1) = c_reports (s_coll s1) ++ map (fun up => (true, snd up)) ups) /\
  ((forall ch, In ch chs -> exists up, make_upload reports ch = Ret up) ->
     exists t0 t1, upload fuel E cfg reports chs s0 s1 = Ret (t0, t1)).
Proof. exact upload_all. Qed.
Print Assumptions C37_upload.

Theorem C37_honest_choice : forall reports ch r,
  nth_error reports (ch_idx ch) = Some r -> ch_malicious ch = false -> make_upload reports ch = Ret (to_shares r).
Proof. exact upload_honest. Qed.
Print Assumptions C37_honest_choice.

Theorem C37_batch_zero : forall fuel E cfg reports chs s0 s1,
  cfg_add_batch cfg = 0 -> chs <> [] -> upload fuel E cfg reports chs s0 s1 = Panic PFuel.
Proof. exact upload_zero. Qed.
Print Assumptions C37_batch_zero.

Example C37_example :
  match upload 7 rx (cfg2 3 2 2) (ex_reports rx) [bad_vidpf 0; bad_flp 1; bad_flp 4; bad_vidpf 2; bad_flp 2; bad_flp 2; bad_vidpf 3]
          (server_start 0 (Some 3) 2) (server_start 1 (Some 3) 2) with
  | Ret (s0, s1) => (length (held_shares s0) =? 7) && (length (held_shares s1) =? 7)
  | Panic _ => false
  end = true.
Proof. vm_cast_no_check (eq_refl true). Qed.

(** C45: [ask] stands for any (adversarial) pair of aggregators; the number of crawls is at most
    log2_up(num_clients) + 2, so no run exhausts that much fuel and more fuel changes nothing. *)
Theorem C45_crawls : forall S (ask : S -> nat -> list nat -> bool -> outcome (S * crawl_answer * crawl_answer)) len n thr s fuel,
  (forall s split mal last, ask s split mal last <> Panic PFuel) -> Nat.log2_up n + 2 <= fuel ->
  level_loop fuel ask len n thr s 1 [] false <> Panic PFuel /\
  (forall s' keep requests, level_loop fuel ask len n thr s 1 [] false = Ret (s', keep, requests) -> requests <= Nat.log2_up n + 2) /\
  level_loop fuel ask len n thr s 1 [] false = level_loop (Nat.log2_up n + 2) ask len n thr s 1 [] false.
Proof. exact @level_requests. Qed.
Print Assumptions C45_crawls.

(** five clients and aggregators that never agree: 3 + 2 crawls, so the bound is tight *)
Example C45_example : level_loop 5 quarrel 2 5 1 tt 1 [] false = Ret (tt, [], 5) /\ Nat.log2_up 5 + 2 = 5.
Proof. split; reflexivity. Qed.
