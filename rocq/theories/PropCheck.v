(** Properties C42, C46, C47 (src/collect.rs, src/bin/server.rs, src/bin/driver.rs): none of the three holds. *)
From Verif Require Import Base Field Util Env Prg Vidpf Merkle Collect Server Driver SpecTree SpecCollect SpecServer SpecDriver SpecCheck
  RefuteFacts RefuteExamples RefEnv ExRun DriverPropFacts.

(** C42: the check string, exactly: the xor of the low 64 bits of the components that are looked at. *)
Theorem C42_string : forall c level checks client, check_shape (c_len c) client checks ->
  xor_checks c level checks client = Ret (le_bytes 8 (xor_all (map low64 (used_all level (c_len c) client checks)))).
Proof. exact check_string. Qed.
Print Assumptions C42_string.

(** hence two check strings agree in exactly these cases *)
Theorem C42_agree : forall c0 c1 level ch0 ch1 i0 i1 s0 s1,
  check_shape (c_len c0) i0 ch0 -> check_shape (c_len c1) i1 ch1 ->
  xor_checks c0 level ch0 i0 = Ret s0 -> xor_checks c1 level ch1 i1 = Ret s1 ->
  (s0 = s1 <-> xor_all (map low64 (used_all level (c_len c0) i0 ch0)) = xor_all (map low64 (used_all level (c_len c1) i1 ch1))).
Proof. exact check_strings_agree. Qed.
Print Assumptions C42_agree.

(** adding 2^64 to any one component of any check goes unnoticed *)
Theorem C42_refuted : forall c level pre per_client post client check i x,
  check_shape (c_len c) client (pre ++ per_client :: post) -> nth_error per_client client = Some check -> nth_error check i = Some x ->
  (fval x + 2 ^ 64 < P)%Z ->
  xor_checks c level (pre ++ update client (update i (fadd x (of_Z (2 ^ 64))) check) per_client :: post) client =
  xor_checks c level (pre ++ per_client :: post) client /\ update i (fadd x (of_Z (2 ^ 64))) check <> check.
Proof. exact check_unnoticed. Qed.
Print Assumptions C42_refuted.

(** two different checks of client 1 with the same string; at level 0 the last component does count *)
Example C42_example :
  negb (checks_eqb ex_ch1 ex_ch2) && ob_eqb (xor_checks (ex_c2 0) 1 ex_ch1 1) (xor_checks (ex_c2 1) 1 ex_ch2 1) &&
  ob_eqb (xor_checks (ex_c2 0) 1 ex_ch1 1) (Ret (le_bytes 8 (N.lxor (N.lxor 10 11) (N.lxor 20 21)))) &&
  negb (ob_eqb (xor_checks (ex_c2 0) 0 ex_ch1 1) (xor_checks (ex_c2 0) 0 ex_ch2 1)) = true.
Proof. exact ex_checks. Qed.

(** C47: a report of the wrong type stops the aggregator when the tree is initialised ... *)
Theorem C47_wrong_type_refuted : forall E s i h nonce pub inp,
  s_poison s = false -> nth_error (c_reports (s_coll s)) i = Some (h, RSPrio3 nonce pub inp) ->
  handle E s QTreeInit = (set_poison s, Panic PExplicit).
Proof. exact wrong_type_tree. Qed.
Print Assumptions C47_wrong_type_refuted.

(** ... and, the other way round, when plain metrics are validated; *)
Theorem C47_wrong_type_metrics_refuted : forall E s i h nonce k proof jr a b,
  s_poison s = false -> nth_error (c_reports (s_coll s)) i = Some (h, RSMastic nonce k proof jr) -> a <= i < b ->
  exists p, handle E s (QPmValidate a b) = (set_poison s, Panic p).
Proof. exact wrong_type_pm. Qed.
Print Assumptions C47_wrong_type_metrics_refuted.

(** a key with too few correction words does as soon as the frontier is deep enough, whether or not the
    report has been rejected ([h] is arbitrary), in every reachable state; *)
Theorem C47_short_key_refuted : forall E id bits h0 qs s i h nonce k proof jr node,
  env_ok E -> s = fst (handle_all E (server_start id bits h0) qs) -> s_poison s = false ->
  nth_error (c_reports (s_coll s)) i = Some (h, RSMastic nonce k proof jr) -> key_typed k ->
  In node (c_frontier (s_coll s)) -> length (cor_words k) <= length (tn_path node) ->
  (forall split last, exists p, handle E s (QTreeCrawl split [] last) = (set_poison s, Panic p)) /\
  (exists p, handle E s QTreeCrawlLast = (set_poison s, Panic p)).
Proof. exact short_key. Qed.
Print Assumptions C47_short_key_refuted.

(** a proof share the FLP refuses to query does when the report's batch is queried. *)
Theorem C47_proof_share_refuted : forall E s i h nonce k proof jr a b n,
  s_poison s = false -> root_of (s_coll s) n -> i < n -> a <= i < b ->
  nth_error (c_reports (s_coll s)) i = Some (h, RSMastic nonce k proof jr) ->
  (forall beta qr jrand, flp_query E (c_len (s_coll s)) beta proof qr jrand 2 = None) ->
  exists p, handle E s (QRunFlpQueries a b) = (set_poison s, Panic p).
Proof. exact bad_proof_share. Qed.
Print Assumptions C47_proof_share_refuted.

(** two reports, the second edited: answered requests (true), panics (false) and the dead aggregator after *)
Example C47_example :
  bools_eqb (oks (ex_mal_run short [QTreeInit; QApplyFlpResults [true; false]; QTreeCrawl 1 [] false; QTreePrune [true; true]])) [true; true; true; true; true; true] &&
  bools_eqb (oks (ex_mal_run short [QTreeInit; QApplyFlpResults [true; false]; QTreeCrawl 1 [] false; QTreePrune [true; true]; QTreeCrawl 1 [] false; QReset ex_vk 2])) [true; true; true; true; true; true; false; false] &&
  bools_eqb (oks (ex_mal_run short [QTreeInit; QApplyFlpResults [true; false]; QTreeCrawl 1 [] false; QTreeCrawlLast; QReset ex_vk 2])) [true; true; true; true; true; false; false] &&
  bools_eqb (oks (ex_mal_run wrong_type [QTreeInit; QReset ex_vk 2])) [true; true; false; false] &&
  bools_eqb (oks (ex_mal_run long_proof [QTreeInit; QRunFlpQueries 0 2; QReset ex_vk 2])) [true; true; true; false; false] &&
  bools_eqb (oks (ex_mal_run (fun r => r) [QTreeInit; QRunFlpQueries 0 2; QTreeCrawl 1 [] false; QTreeCrawlLast; QReset ex_vk 2])) [true; true; true; true; true; true; true] = true.
Proof. exact ex_malformed. Qed.

(** C46: with one-bit strings the run does not depend on the FLP at all. *)
Theorem C46_refuted : forall fuel E cfg s0 s1 n q d,
  cfg_bits cfg = Some 1 -> run_whh fuel (with_flp E q d) cfg s0 s1 n = run_whh fuel E cfg s0 s1 n.
Proof. exact one_bit_no_flp. Qed.
Print Assumptions C46_refuted.

(** with two or more bits every report accepted at the end has passed the FLP decision *)
Theorem C46_two_bits : forall fuel E cfg id0 b0 h0 qs0 id1 b1 h1 qs1 s0 s1 n t0 t1 res b,
  s0 = fst (handle_all E (server_start id0 b0 h0) qs0) -> s1 = fst (handle_all E (server_start id1 b1 h1) qs1) ->
  cfg_bits cfg = Some b -> 2 <= b -> run_whh fuel E cfg s0 s1 n = Ret (t0, t1, res) ->
  exists u0 u1 keep w0 w1, call2_done E s0 s1 QTreeInit QTreeInit = Ret (u0, u1) /\ flp_loop fuel E cfg u0 u1 n 0 [] = Ret (w0, w1, keep) /\
    forall i, i < length (c_reports (s_coll s0)) -> (accepted t0 i \/ accepted t1 i) -> nth_error keep i = Some true.
Proof. exact accepted_verified_reachable. Qed.
Print Assumptions C46_two_bits.

(** weight 1000 accepted with one bit, rejected with two *)
Example C46_example :
  match ex_whh_reports 1 1 [weird_report 1 [true] [of_Z 1000; of_Z 0]; weird_report 2 [true] [of_Z 0; of_Z 1]] with
  | Ret (s0, s1, rs) => res_eqb rs [([true], [1000; 1; 2])]%Z
  | Panic _ => false
  end &&
  match ex_whh_reports 2 1 [weird_report 1 [true; true] [of_Z 1000; of_Z 0]; weird_report 2 [true; true] [of_Z 0; of_Z 1]] with
  | Ret (s0, s1, rs) => res_eqb rs [([true; true], [0; 1; 1])]%Z && bools_eqb (ex_flags s0) [false; true] && bools_eqb (ex_flags s1) [false; true]
  | Panic _ => false
  end = true.
Proof. exact ex_one_bit. Qed.
