(** Concrete cases for the properties of PropCheck. *)
From Verif Require Import Base Field Util Env Prg Vidpf Merkle Collect Server Driver SpecCheck RefEnv VidpfPropFacts ExRun DriverPropFacts.

(** a collector with two buckets *)
Definition ex_c2 (id : Z) : coll := coll_new 2 id (Some 3) [].
(** two clients, two prefixes; the second list differs from the first in client 1's check *)
Definition ex_ch1 : list (list (list fld)) := map (map (map of_Z)) [[[5; 6; 7]; [10; 11; 12]]; [[1; 1; 1]; [20; 21; 22]]]%Z.
Definition ex_ch2 : list (list (list fld)) := map (map (map of_Z)) [[[5; 6; 7]; [11; 2 ^ 64 + 10; 99]]; [[1; 1; 1]; [20; 21; 5]]]%Z.
Definition checks_eqb (a b : list (list (list fld))) : bool := list_eqb (list_eqb (list_eqb feqb)) a b.
Definition ob_eqb (a b : outcome bytes) : bool := match a, b with Ret x, Ret y => bytes_eqb x y | _, _ => false end.
Lemma ex_checks :
  negb (checks_eqb ex_ch1 ex_ch2) && ob_eqb (xor_checks (ex_c2 0) 1 ex_ch1 1) (xor_checks (ex_c2 1) 1 ex_ch2 1) &&
  ob_eqb (xor_checks (ex_c2 0) 1 ex_ch1 1) (Ret (le_bytes 8 (N.lxor (N.lxor 10 11) (N.lxor 20 21)))) &&
  negb (ob_eqb (xor_checks (ex_c2 0) 0 ex_ch1 1) (xor_checks (ex_c2 0) 0 ex_ch2 1)) = true.
Proof. vm_cast_no_check (eq_refl true). Qed.

(** *** malformed reports *)
Definition ex_mal (edit : report_share -> report_share) : list report_share :=
  match map (fun r => fst (to_shares r)) (firstn 2 (ex_reports rx)) with [a; b] => [a; edit b] | _ => [] end.
Definition ex_mal_run (edit : report_share -> report_share) (qs : list request) : server * list (outcome response) :=
  handle_all rx (server_start 0 (Some 3) 2) ([QReset ex_vk 2; QAddReportShares (ex_mal edit)] ++ qs).
Definition short (r : report_share) : report_share :=
  match r with
  | RSMastic n k p j => RSMastic n {| key_idx := key_idx k; root_seed := root_seed k; cor_words := firstn 1 (cor_words k); cs := firstn 1 (cs k) |} p j
  | x => x
  end.
Definition wrong_type (r : report_share) : report_share := RSPrio3 [] [] [].
Definition long_proof (r : report_share) : report_share :=
  match r with RSMastic n k p j => RSMastic n k (p ++ p) j | x => x end.
Definition oks (x : server * list (outcome response)) : list bool := map is_ret (snd x).
Definition bools_eqb (a b : list bool) : bool := list_eqb Bool.eqb a b.
Lemma ex_malformed :
  bools_eqb (oks (ex_mal_run short [QTreeInit; QApplyFlpResults [true; false]; QTreeCrawl 1 [] false; QTreePrune [true; true]])) [true; true; true; true; true; true] &&
  bools_eqb (oks (ex_mal_run short [QTreeInit; QApplyFlpResults [true; false]; QTreeCrawl 1 [] false; QTreePrune [true; true]; QTreeCrawl 1 [] false; QReset ex_vk 2])) [true; true; true; true; true; true; false; false] &&
  bools_eqb (oks (ex_mal_run short [QTreeInit; QApplyFlpResults [true; false]; QTreeCrawl 1 [] false; QTreeCrawlLast; QReset ex_vk 2])) [true; true; true; true; true; false; false] &&
  bools_eqb (oks (ex_mal_run wrong_type [QTreeInit; QReset ex_vk 2])) [true; true; false; false] &&
  bools_eqb (oks (ex_mal_run long_proof [QTreeInit; QRunFlpQueries 0 2; QReset ex_vk 2])) [true; true; true; false; false] &&
  bools_eqb (oks (ex_mal_run (fun r => r) [QTreeInit; QRunFlpQueries 0 2; QTreeCrawl 1 [] false; QTreeCrawlLast; QReset ex_vk 2])) [true; true; true; true; true; true; true] = true.
Proof. vm_cast_no_check (eq_refl true). Qed.

(** *** one-bit runs *)
(** a report for any weight at all, with the proof an honest client would give *)
Definition weird_report (i : nat) (alpha : list bool) (beta : list fld) : plaintext_report :=
  match gen rx (ex_seed (3 * i + 1)) (ex_seed (5 * i + 2)) alpha beta with
  | Ret (k0, k1) => PRMastic (ex_seed i) (k0, k1) ([fone], [fzero]) ([], []) alpha
  | Panic _ => PRPrio3 [] [] [] []
  end.
Definition ex_up_reports (bits : nat) (reports : list plaintext_report) : outcome (server * server) :=
  let c := {| cfg_bits := Some bits; cfg_hist := 2; cfg_add_batch := 2; cfg_query_batch := 2; cfg_thr := 1%Z |} in
  let! '(s0, s1) := reset_servers rx c ex_vk (server_start 0 (Some bits) 2) (server_start 1 (Some bits) 2) in
  upload 20 rx c reports (honest_choices (seq 0 (length reports))) s0 s1.
Definition cfg_n (bits : nat) (thr : Z) : config := {| cfg_bits := Some bits; cfg_hist := 2; cfg_add_batch := 2; cfg_query_batch := 2; cfg_thr := thr |}.
Definition ex_whh_reports (bits : nat) (thr : Z) (reports : list plaintext_report) : outcome (server * server * list result) :=
  let! '(s0, s1) := ex_up_reports bits reports in run_whh 20 rx (cfg_n bits thr) s0 s1 (length reports).
Lemma ex_one_bit :
  match ex_whh_reports 1 1 [weird_report 1 [true] [of_Z 1000; of_Z 0]; weird_report 2 [true] [of_Z 0; of_Z 1]] with
  | Ret (s0, s1, rs) => res_eqb rs [([true], [1000; 1; 2])]%Z
  | Panic _ => false
  end &&
  match ex_whh_reports 2 1 [weird_report 1 [true; true] [of_Z 1000; of_Z 0]; weird_report 2 [true; true] [of_Z 0; of_Z 1]] with
  | Ret (s0, s1, rs) => res_eqb rs [([true; true], [0; 1; 1])]%Z && bools_eqb (ex_flags s0) [false; true] && bools_eqb (ex_flags s1) [false; true]
  | Panic _ => false
  end = true.
Proof. vm_cast_no_check (eq_refl true). Qed.
