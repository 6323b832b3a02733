(** The repository's own tests as programs over the model, with their constants and their randomness as
    arguments.  A failing assertion is a panic; printed output is omitted. *)
From Verif Require Import Base Field Util Env Prg Vidpf Merkle Collect Server Driver.

(** PartialEq of Field128 *)
Definition fld_eqb (a b : fld) : bool := (fval a =? fval b)%Z.

(** tests/dpf_test.rs:21-38  the inner loop, for the lengths [js]; [pi0], [pi1] are the running proofs *)
Definition dpf_inner (E : env) (k0 k1 : vidpf_key) (alpha alpha_eval : list bool) (beta : list fld)
  (js : list nat) (pis : bytes * bytes) : outcome (bytes * bytes) :=
  foldM (fun pis j =>
    let! '(out0, _, pi0) := eval E k0 (firstn j alpha_eval) (fst pis) 1 in
    let! '(out1, _, pi1) := eval E k1 (firstn j alpha_eval) (snd pis) 1 in
    let! w0 := index out0 (j - 2) in
    let! x0 := index w0 0 in
    let! w1 := index out1 (j - 2) in
    let! x1 := index w1 0 in
    let tmp := fadd x0 x1 in
    let! b := index beta 0 in
    do! assert_ (if path_eqb (firstn (j - 1) alpha) (firstn (j - 1) alpha_eval)
                 then fld_eqb b tmp else fld_eqb (of_N 0) tmp);
    Ret (pi0, pi1)) pis js.
(** tests/dpf_test.rs:8-41  dpf_complete (there: num_bits = 5, a = 21, beta = [7]) *)
Definition test_dpf (E : env) (seed0 seed1 : bytes) (num_bits : nat) (a : N) (beta : list fld) : outcome unit :=
  let! alpha := u32_to_bits num_bits a in
  let! '(k0, k1) := gen E seed0 seed1 alpha beta in
  let pi := firstn 16 (blake3 E [48%N]) in
  let! _ := foldM (fun pis i =>
    let! alpha_eval := u32_to_bits num_bits (N.of_nat i) in
    let! pis := dpf_inner E k0 k1 alpha alpha_eval beta (seq 2 (num_bits - 1 - 2)) pis in
    do! assert_ (bytes_eqb (fst pis) (snd pis));
    Ret pis) (pi, pi) (seq 0 (2 ^ num_bits)) in
  Ret tt.

(** src/vidpf.rs:485-537  mode_attribute_based_metrics (there: s = "h", attributes h, s, b, c, and
    beta = [1337]; the expected values are written out) *)
Definition test_tree (E : env) (seed0 seed1 : bytes) (s : bytes) (attributes : list bytes) (beta : list fld)
  (expected : list (list fld)) : outcome unit :=
  let! '(k0, k1) := gen_from_str E seed0 seed1 s beta in
  do! assert_ (Bool.eqb (key_idx k0) false);
  do! assert_ (Bool.eqb (key_idx k1) true);
  let! paths := mapM string_to_bits attributes in
  let! '(v0, b0, t0) := eval_tree E k0 paths (length beta) [] in
  let! '(v1, b1, t1) := eval_tree E k1 paths (length beta) [] in
  do! assert_ (length v0 =? length attributes);
  do! assert_ (length v1 =? length attributes);
  do! assert_ (length b0 =? length beta);
  do! assert_ (length b1 =? length beta);
  let values := map (fun vs => vec_add (fst vs) (snd vs)) (combine v0 v1) in
  do! assert_ (list_eqb fld_eqb (vec_add b0 b1) beta);
  let! _ := mapM (fun ve => assert_ (list_eqb fld_eqb (fst ve) (snd ve))) (combine values expected) in
  do! assert_ (bytes_eqb (blake3 E t0) (blake3 E t1));
  Ret tt.

(** one simulated client of tests/collect_test.rs: the randomness of its key, its string, its weights *)
Record voter := { v_seed0 : bytes; v_seed1 : bytes; v_str : bytes; v_beta : list fld }.
(** tests/collect_test.rs:24-37, 111-137: the report without a proof *)
Definition bare_report (k : vidpf_key) : report_share :=
  RSMastic (repeat 0%N 16) k [] (repeat 0%N 16, repeat 0%N 16).
Definition add_voter (E : env) (cs : coll * coll) (v : voter) : outcome (coll * coll) :=
  let! '(k0, k1) := gen_from_str E (v_seed0 v) (v_seed1 v) (v_str v) (v_beta v) in
  Ret (add_report_share (fst cs) (bare_report k0), add_report_share (snd cs) (bare_report k1)).

(** tests/collect_test.rs:45-56, 144-158: one level *)
Definition test_level (E : env) (len : nat) (thr : Z) (cs : coll * coll) : outcome (coll * coll) :=
  let! '(c0, (cnt0, _, _)) := tree_crawl E (fst cs) 1 [] false in
  let! '(c1, (cnt1, _, _)) := tree_crawl E (snd cs) 1 [] false in
  do! assert_ (length cnt0 =? length cnt1);
  let! keep := keep_values len thr cnt0 cnt1 in
  let! c0 := tree_prune c0 keep in
  let! c1 := tree_prune c1 keep in
  Ret (c0, c1).
Fixpoint test_levels (E : env) (len : nat) (thr : Z) (k : nat) (cs : coll * coll) : outcome (coll * coll) :=
  match k with
  | O => Ret cs
  | S k' => let! cs := test_level E len thr cs in test_levels E len thr k' cs
  end.
(** tests/collect_test.rs:58-82, 160-183: the last level; the first [n] proofs are compared *)
Definition test_last (E : env) (len : nat) (thr : Z) (n : nat) (cs : coll * coll) : outcome (list result) :=
  let! '(c0, cnt0) := tree_crawl_last E (fst cs) in
  let! '(c1, cnt1) := tree_crawl_last E (snd cs) in
  let h0 := get_proofs c0 0 n in
  let h1 := get_proofs c1 0 n in
  do! assert_ (length cnt0 =? length cnt1);
  do! assert_ (length h0 =? length h1);
  do! assert_ (forallb (fun hh => bytes_eqb (fst hh) (snd hh)) (combine h0 h1));
  let! keep := keep_values len thr cnt0 cnt1 in
  let! c0 := tree_prune c0 keep in
  let! c1 := tree_prune c1 keep in
  final_values len (final_shares c0) (final_shares c1).
(** tests/collect_test.rs:6-82 and 97-183: everything up to the list of results ([strlen] is the number of
    bits of the first string) *)
Definition test_collect (E : env) (len : nat) (thr : Z) (vk : bytes) (strlen n : nat) (vs : list voter)
  : outcome (list result) :=
  if negb (hist_ok len) then Panic PUnwrap else
  let! cs := foldM (add_voter E) (coll_new len 0 (Some strlen) vk, coll_new len 1 (Some strlen) vk) vs in
  let! c0 := tree_init (fst cs) in
  let! c1 := tree_init (snd cs) in
  let! cs := test_levels E len thr (strlen - 1) (c0, c1) in
  test_last E len thr n cs.

(** tests/collect_test.rs:82-94: every result must be one of the expected ones; results are compared as
    integers *)
Definition check_results (expected : bytes -> option (list Z)) (rs : list result) : outcome unit :=
  let! _ := mapM (fun r => let! s := bits_to_string (res_path r) in
                 match expected s with
                 | Some v => assert_ (list_eqb Z.eqb (map fval (res_value r)) v)
                 | None => Panic PAssert
                 end) rs in
  Ret tt.

(** "abdef", "ghijk", "gZijk", "gZ???", "  ?*g" *)
Definition s_abdef : bytes := [97; 98; 100; 101; 102]%N.
Definition s_ghijk : bytes := [103; 104; 105; 106; 107]%N.
Definition s_gZijk : bytes := [103; 90; 105; 106; 107]%N.
Definition s_gZqqq : bytes := [103; 90; 63; 63; 63]%N.
Definition s_misc : bytes := [32; 32; 63; 42; 103]%N.
(** tests/collect_test.rs:8-10 *)
Definition group_strings : list bytes :=
  [s_abdef; s_abdef; s_abdef; s_ghijk; s_gZijk; s_gZqqq; s_misc; s_abdef; s_gZqqq; s_gZqqq].
(** the voters of the test for given seeds; encode_measurement(&2) with four buckets *)
Definition group_voters (seeds : list (bytes * bytes)) : list voter :=
  map (fun ss => {| v_seed0 := fst (fst ss); v_seed1 := snd (fst ss); v_str := snd ss; v_beta := one_hot 4 2 |})
      (combine seeds group_strings).
(** tests/collect_test.rs:87-93 *)
Definition group_expected (s : bytes) : option (list Z) :=
  if bytes_eqb s s_abdef then Some [0; 0; 4; 0; 4]%Z
  else if bytes_eqb s s_gZqqq then Some [0; 0; 3; 0; 3]%Z else None.
(** tests/collect_test.rs:6-95  collect_test_eval_groups *)
Definition test_groups (E : env) (vk : bytes) (seeds : list (bytes * bytes)) : outcome unit :=
  let! strlen := (let! b := string_to_bits s_abdef in Ret (length b)) in
  let! rs := test_collect E 4 2 vk strlen 10 (group_voters seeds) in
  check_results group_expected rs.

(** "01234567012345670123456701234567" and the tail "12x45670y2345670123456701234567" of the others *)
Definition digits8 : bytes := [48; 49; 50; 51; 52; 53; 54; 55]%N.
Definition s_digits : bytes := digits8 ++ digits8 ++ digits8 ++ digits8.
Definition s_tail : bytes :=
  [49; 50; 120; 52; 53; 54; 55; 48; 121; 50; 51; 52; 53; 54; 55]%N ++ digits8 ++ digits8.
(** tests/collect_test.rs:98-103 *)
Definition full_strings : list bytes := [s_digits; 122%N :: s_tail; 54%N :: s_tail; 57%N :: s_tail].
(** tests/collect_test.rs:115-137: ten clients share the keys of the four strings *)
Definition full_voters (seeds : nat -> bytes * bytes) : list voter :=
  map (fun i => {| v_seed0 := fst (seeds (i mod 4)); v_seed1 := snd (seeds (i mod 4));
                   v_str := nth (i mod 4) full_strings []; v_beta := one_hot 4 1 |}) (seq 0 10).
(** tests/collect_test.rs:97-191  collect_test_eval_full_groups; the results are only printed *)
Definition test_full (E : env) (vk : bytes) (seeds : nat -> bytes * bytes) : outcome (list result) :=
  let! strlen := (let! b := string_to_bits s_digits in Ret (length b)) in
  let! rs := test_collect E 4 2 vk strlen 4 (full_voters seeds) in
  let! _ := mapM (fun r => bits_to_string (res_path r)) rs in
  Ret rs.

(** src/lib.rs:255-292  to_bits, to_string and to_from_string; "basfsdfwefwf" *)
Definition s_basf : bytes := [98; 97; 115; 102; 115; 100; 102; 119; 101; 102; 119; 102]%N.
Definition test_bits : outcome unit :=
  let check n x l := (let! b := u32_to_bits n x in assert_ (path_eqb b l)) in
  do! check 0 7%N [];
  do! check 1 0%N [false];
  do! check 2 0%N [false; false];
  do! check 2 3%N [true; true];
  do! check 2 1%N [true; false];
  do! check 12 65535%N (repeat true 12);
  let avec := [true; false; false; false; false; true; true; false] in
  let! e := string_to_bits [] in
  do! assert_ (path_eqb e []);
  let! a := string_to_bits [97%N] in
  do! assert_ (path_eqb a avec);
  let! aaa := string_to_bits [97; 97; 97]%N in
  do! assert_ (path_eqb aaa (avec ++ avec ++ avec));
  let! bitvec := string_to_bits s_basf in
  let! s2 := bits_to_string bitvec in
  do! assert_ (length bitvec =? length s_basf * 8);
  assert_ (bytes_eqb s_basf s2).

(** the randomness of one run of tests/flp_test.rs:32-111; [f_input], [f_proof] give the random share of
    the input and of the proof *)
Record flp_rand := { f_nonce : bytes; f_seed0 : bytes; f_seed1 : bytes; f_prove_rand : list fld;
                     f_input : nat -> fld; f_proof : nat -> fld }.
(** tests/flp_test.rs:32-111  run_flp_with_input *)
Definition run_flp_with_input (E : env) (vk : bytes) (len : nat) (m : nat) (r : flp_rand) : outcome bool :=
  let! input := unwrap (encode_measurement len m) in
  let input_0 := map (f_input r) (seq 0 (length input)) in
  let input_1 := zip_sub input input_0 in
  let query_rand := xof_field E vk (f_nonce r) [] (flp_query_rand_len E len) in
  let jr_part_0 := xof_bytes E (f_seed0 r) (repeat 0%N 16) (0%N :: f_nonce r) 16 in
  let jr_part_1 := xof_bytes E (f_seed1 r) (repeat 0%N 16) (1%N :: f_nonce r) 16 in
  let joint_rand := xof_field E jr_part_0 jr_part_1 [] (flp_joint_rand_len E len) in
  let! proof := unwrap (flp_prove E len input (f_prove_rand r) joint_rand) in
  let proof_0 := map (f_proof r) (seq 0 (length proof)) in
  let proof_1 := zip_sub proof proof_0 in
  let! v0 := unwrap (flp_query E len input_0 proof_0 query_rand joint_rand 2) in
  let! v1 := unwrap (flp_query E len input_1 proof_1 query_rand joint_rand 2) in
  unwrap (flp_decide E len (zip_add v0 v1)).
(** tests/flp_test.rs:11-30  histograms; the five measurements with their randomness *)
Definition test_histograms (E : env) (vk : bytes) (len : nat) (rs : list (nat * flp_rand)) : outcome unit :=
  if negb (hist_ok len) then Panic PUnwrap else
  let! _ := mapM (fun mr => let! b := run_flp_with_input E vk len (fst mr) (snd mr) in assert_ b) rs in
  Ret tt.
