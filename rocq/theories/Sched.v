(** Finer model of the parallel parts: every call of the pseudorandom generator is a step of its own, taken by
    some thread on that thread's own stream (thread_local! FIXED_KEY_STREAM, src/prg.rs:47), and the closures of
    a rayon par_iter are tasks whose steps interleave in any order. *)
From Verif Require Import Base Field Util Env Prg Vidpf Merkle Collect Server Driver.

(** What is left to do of a computation.  A call of expand_dir (src/prg.rs:66-95) or convert (101-123) borrows
    the stream for the whole call and calls nothing else, so it is one step.  [TPar n ts k] is a par_iter over
    [n] closures followed by [k]; rayon hands the results over in the order of the input (collect, unzip and
    par_extend of indexed iterators). *)
Inductive task (A : Type) : Type :=
| TDone (o : outcome A)
| TExpand (key : bytes) (left right : bool) (k : prg_output -> task A)
| TConvert (key : bytes) (input_len : nat) (k : bytes * list fld -> task A)
| TPar (B : Type) (n : nat) (ts : nat -> task B) (k : list B -> task A).
Arguments TDone {A}. Arguments TExpand {A}. Arguments TConvert {A}. Arguments TPar {A B}.

Fixpoint tbind {A B} (t : task A) (f : A -> task B) : task B :=
  match t with
  | TDone (Ret a) => f a
  | TDone (Panic p) => TDone (Panic p)
  | TExpand key l r k => TExpand key l r (fun o => tbind (k o) f)
  | TConvert key n k => TConvert key n (fun o => tbind (k o) f)
  | TPar n ts k => TPar n ts (fun vs => tbind (k vs) f)
  end.
Notation "'lett' x ':=' m 'in' k" := (tbind m (fun x => k))
  (at level 200, x name, m at level 100, k at level 200, right associativity).
Notation "'lett' ' p ':=' m 'in' k" := (tbind m (fun x => match x with p => k end))
  (at level 200, p pattern, m at level 100, k at level 200, right associativity).
Notation "'dot' m ';' k" := (tbind m (fun _ => k))
  (at level 200, m at level 100, k at level 200, right associativity).
(** code that does not touch the stream *)
Definition pure {A} (o : outcome A) : task A := TDone o.
(** par_iter().enumerate().map(f).collect() *)
Definition par_mapi {A B} (f : nat -> A -> task B) (l : list A) : task (list B) :=
  TPar (length l) (fun i => match nth_error l i with Some a => f i a | None => TDone (Panic PIndex) end) (fun vs => TDone (Ret vs)).
Definition par_map {A B} (f : A -> task B) (l : list A) : task (list B) := par_mapi (fun _ => f) l.

(** the streams of the threads *)
Definition threads : Type := nat -> stream.
Definition set_thread (thr : threads) (t : nat) (s : stream) : threads := fun u => if u =? t then s else thr u.
Definition set_task {B} (ts : nat -> task B) (i : nat) (t : task B) : nat -> task B := fun j => if j =? i then t else ts j.

(** One step of any thread.  If a closure panics the par_iter panics; the other closures may or may not have
    run.  The stream of a thread that panicked can be anything. *)
Fixpoint step (E : env) {A} (thr : threads) (t : task A) (thr' : threads) (t' : task A) : Prop :=
  match t with
  | TDone _ => False
  | TExpand key l r k => exists th,
      (exists s o, expand_dir_on E (thr th) key l r = Ret (s, o) /\ thr' = set_thread thr th s /\ t' = k o) \/
      (exists s p, expand_dir_on E (thr th) key l r = Panic p /\ thr' = set_thread thr th s /\ t' = TDone (Panic p))
  | TConvert key n k => exists th,
      (exists s o, convert_on E (thr th) key n = Ret (s, o) /\ thr' = set_thread thr th s /\ t' = k o) \/
      (exists s p, convert_on E (thr th) key n = Panic p /\ thr' = set_thread thr th s /\ t' = TDone (Panic p))
  | TPar n ts k =>
      (exists i u, i < n /\ step E thr (ts i) thr' u /\ t' = TPar n (set_task ts i u) k) \/
      (exists vs, length vs = n /\ (forall i v, nth_error vs i = Some v -> ts i = TDone (Ret v)) /\ thr' = thr /\ t' = k vs) \/
      (exists i p, i < n /\ ts i = TDone (Panic p) /\ thr' = thr /\ t' = TDone (Panic p))
  end.
(** [n] steps *)
Fixpoint steps (E : env) {A} (n : nat) (thr : threads) (t : task A) (thr' : threads) (t' : task A) : Prop :=
  match n with
  | O => thr' = thr /\ t' = t
  | S m => exists thr1 t1, step E thr t thr1 t1 /\ steps E m thr1 t1 thr' t'
  end.

(** src/vidpf.rs:190-243 *)
Definition gen_cor_word_t (E : env) (bit : bool) (beta : list fld) (bits : bool * bool) (seeds : bytes * bytes)
  : task (cor_word * (bool * bool) * (bytes * bytes)) :=
  TExpand (fst seeds) true true (fun data0 =>
  TExpand (snd seeds) true true (fun data1 =>
  let keep := bit in
  let lose := negb keep in
  let cwseed := seed_xor (tget (po_seeds data0) lose) (tget (po_seeds data1) lose) in
  let cwbits := (xorb (xorb (xorb (fst (po_bits data0)) (fst (po_bits data1))) bit) true,
                 xorb (xorb (snd (po_bits data0)) (snd (po_bits data1))) bit) in
  let '(seed0, bit0) := next_seed_bit data0 (fst bits) keep cwseed cwbits in
  let '(seed1, bit1) := next_seed_bit data1 (snd bits) keep cwseed cwbits in
  let input_len := length beta in
  TConvert seed0 input_len (fun '(cseed0, cword0) =>
  TConvert seed1 input_len (fun '(cseed1, cword1) =>
  let word := beta ++ [fone] in
  let word := vec_sub word cword0 in
  let word := vec_add word cword1 in
  let word := if bit1 then vec_neg word else word in
  TDone (Ret ({| cw_seed := cwseed; cw_bits := cwbits; cw_word := word |}, (bit0, bit1), (cseed0, cseed1))))))).
(** src/vidpf.rs:262-284 *)
Fixpoint gen_loop_t (E : env) (alpha : list bool) (beta : list fld) (bit_str : bytes)
         (bits : bool * bool) (seeds : bytes * bytes) : task (list cor_word * list bytes) :=
  match alpha with
  | [] => TDone (Ret ([], []))
  | bit :: alpha' =>
      let bit_str := bit_str ++ [bit_char bit] in
      lett '(cw, bits', seeds') := gen_cor_word_t E bit beta bits seeds in
      let pi_0 := node_hash E bit_str (fst seeds') in
      let pi_1 := node_hash E bit_str (snd seeds') in
      let c := firstn HASH_SIZE (xor_vec pi_0 pi_1) in
      lett '(cws, css) := gen_loop_t E alpha' beta bit_str bits' seeds' in
      TDone (Ret (cw :: cws, c :: css))
  end.
(** src/vidpf.rs:251-300 *)
Definition gen_t (E : env) (seed0 seed1 : bytes) (alpha : list bool) (beta : list fld) : task (vidpf_key * vidpf_key) :=
  lett '(cws, css) := gen_loop_t E alpha beta [] (false, true) (seed0, seed1) in
  TDone (Ret ({| key_idx := false; root_seed := seed0; cor_words := cws; cs := css |},
              {| key_idx := true; root_seed := seed1; cor_words := cws; cs := css |})).
(** src/bin/driver.rs:139-195 *)
Definition gen_report_t (E : env) (len : nat) (cl : client) : task plaintext_report :=
  lett beta := pure (unwrap (encode_measurement len (cl_bucket cl))) in
  lett '(key_0, key_1) := gen_t E (cl_seed0 cl) (cl_seed1 cl) (cl_alpha cl) beta in
  let jr0 := xof_bytes E (root_seed key_0) (repeat 0%N 16) (0%N :: cl_nonce cl) 16 in
  let jr1 := xof_bytes E (root_seed key_1) (repeat 0%N 16) (1%N :: cl_nonce cl) 16 in
  let joint_rand := xof_field E jr0 jr1 [] (flp_joint_rand_len E len) in
  lett proof := pure (unwrap (flp_prove E len beta (cl_prove_rand cl) joint_rand)) in
  let proof_0 := map (cl_proof_rand cl) (seq 0 (length proof)) in
  let proof_1 := zip_sub proof proof_0 in
  TDone (Ret (PRMastic (cl_nonce cl) (key_0, key_1) (proof_0, proof_1) (jr0, jr1) (cl_alpha cl))).
(** src/bin/driver.rs:126-215  into_par_iter over the clients *)
Definition gen_reports_t (E : env) (len : nat) (cls : list client) : task (list plaintext_report) := par_map (gen_report_t E len) cls.

(** src/vidpf.rs:302-369 *)
Definition eval_bit_t (E : env) (k : vidpf_key) (st : eval_state) (dir : bool) (bit_str : bytes) (input_len : nat)
  : task (eval_state * list fld) :=
  TExpand (es_seed st) (negb dir) dir (fun tau =>
  let seed := tget (po_seeds tau) dir in
  let new_bit := tget (po_bits tau) dir in
  lett '(seed, new_bit) :=
    pure (if es_bit st
          then let! cw := index (cor_words k) (es_level st) in
               Ret (seed_xor seed (cw_seed cw), xorb new_bit (tget (cw_bits cw) dir))
          else Ret (seed, new_bit)) in
  TConvert seed input_len (fun '(new_seed, word) =>
  pure (
    let! word := (if new_bit
                  then let! cw := index (cor_words k) (es_level st) in Ret (vec_add word (cw_word cw))
                  else Ret word) in
    let word := if key_idx k then vec_neg word else word in
    let pi_prime := firstn HASH_SIZE (node_hash E bit_str new_seed) in
    let! h := (if negb new_bit then Ret (xor_vec (es_proof st) pi_prime)
               else let! c := index (cs k) (es_level st) in Ret (xor_three_vecs (es_proof st) pi_prime c)) in
    let h2 := blake3 E h in
    let proof := xor_vec (firstn HASH_SIZE h2) (es_proof st) in
    Ret ({| es_level := es_level st + 1; es_seed := new_seed; es_bit := new_bit; es_proof := proof |}, word)))).
(** src/vidpf.rs:76-87 *)
Definition node_next_t (E : env) (k : vidpf_key) (bit_str : bytes) (st : eval_state) (bit : bool) (input_len : nat) : task enode :=
  let bit_str' := bit_str ++ [bit_char bit] in
  lett '(st', w) := eval_bit_t E k st bit bit_str' input_len in
  TDone (Ret (ENode bit_str' (Some w) None st' None None)).
(** src/vidpf.rs:89-142 *)
Fixpoint traverse_t (E : env) (k : vidpf_key) (input_len : nat) (path : list bool) (n : enode) (tr : bytes)
  : task (enode * enode * bytes) :=
  match path with
  | [] => TDone (Ret (n, n, tr))
  | b :: path' =>
      let '(ENode bs w pc st l r) := n in
      let p := match w, pc with Some x, None => Some x | _, _ => None end in
      lett '(lnode, p) := (match l with
                           | None => lett c := node_next_t E k bs st false input_len in TDone (Ret (c, sub_child p c))
                           | Some c => TDone (Ret (c, p)) end) in
      lett '(rnode, p) := (match r with
                           | None => lett c := node_next_t E k bs st true input_len in TDone (Ret (c, sub_child p c))
                           | Some c => TDone (Ret (c, p)) end) in
      let '(pc', tr') :=
        match p with
        | Some x => let x := if key_idx k then vec_neg x else x in
                    (Some x, tr ++ concat (map get_encoded x))
        | None => (pc, tr)
        end in
      if negb b then
        lett '(lnode', res, tr'') := traverse_t E k input_len path' lnode tr' in
        TDone (Ret (ENode bs w pc' st (Some lnode') (Some rnode), res, tr''))
      else
        lett '(rnode', res, tr'') := traverse_t E k input_len path' rnode tr' in
        TDone (Ret (ENode bs w pc' st (Some lnode) (Some rnode'), res, tr''))
  end.
(** src/vidpf.rs:428-433 *)
Fixpoint eval_paths_t (E : env) (k : vidpf_key) (input_len : nat) (paths : list (list bool)) (root : enode) (tr : bytes)
  : task (enode * list (list fld) * bytes) :=
  match paths with
  | [] => TDone (Ret (root, [], tr))
  | path :: paths' =>
      dot pure (assert_ (negb (length path =? 0)));
      lett '(root, node, tr) := traverse_t E k input_len path root tr in
      let tr := tr ++ es_proof (n_state node) in
      lett w := pure (unwrap (n_word node)) in
      lett '(root, vals, tr) := eval_paths_t E k input_len paths' root tr in
      TDone (Ret (root, w :: vals, tr))
  end.
(** src/vidpf.rs:411-464 *)
Definition eval_tree_t (E : env) (k : vidpf_key) (paths : list (list bool)) (input_len : nat) (tr : bytes)
  : task (list (list fld) * list fld * bytes) :=
  let kidx := of_N (if key_idx k then 1 else 0) in
  lett '(root, vals, tr) := eval_paths_t E k input_len paths (new_root_from_key k) tr in
  lett '(root, nl, tr) := traverse_t E k input_len [false] root tr in
  lett y := pure (unwrap (n_word nl)) in
  lett '(root, nr, tr) := traverse_t E k input_len [true] root tr in
  lett yr := pure (unwrap (n_word nr)) in
  let y := vec_add y yr in
  lett counter := pure (index y input_len) in
  let counter := if key_idx k then fneg counter else counter in
  let counter := fadd counter kidx in
  let tr := tr ++ get_encoded counter in
  TDone (Ret (vals, firstn input_len y, tr)).

(** src/collect.rs:207-242: par_iter over the reports *)
Definition make_tree_node_t (E : env) (c : coll) (parent : tree_node) (dir : bool) : task tree_node :=
  let bit_str := bits_to_bitstring (tn_path parent) ++ [bit_char dir] in
  lett res := par_mapi (fun i (hr : bool * report_share) =>
                 lett k := pure (unwrap_vidpf_key (snd hr)) in
                 lett st := pure (index (tn_states parent) i) in
                 eval_bit_t E k st dir bit_str (c_len c)) (c_reports c) in
  let key_states := map fst res in
  let key_values := map snd res in
  TDone (Ret {| tn_path := tn_path parent ++ [dir];
                tn_value := sum_honest (c_len c + 1) key_values (c_reports c);
                tn_states := key_states;
                tn_values := key_values |}).
(** src/collect.rs:244-282: the closures of the second par_iter (lines 258-281) *)
Definition run_flp_queries_t (E : env) (c : coll) (start stop : nat) : task (list (list fld)) :=
  lett n0 := pure (index (c_frontier c) 0) in
  dot pure (assert_ (length (tn_path n0) =? 0));
  dot pure (debug_assert (dbg E) (length (c_frontier c) =? 1));
  lett node_left := make_tree_node_t E c n0 false in
  lett node_right := make_tree_node_t E c n0 true in
  dot pure (debug_assert (dbg E) (length (tn_values n0) =? length (tn_values node_left)));
  par_map (fun i => pure (
          let! y_p0 := index (tn_values node_left) i in
          let! y_p1 := index (tn_values node_right) i in
          let beta_share := zeros (c_len c) in
          let beta_share := vec_add beta_share y_p0 in
          let beta_share := vec_add beta_share y_p1 in
          let! hr := index (c_reports c) i in
          let! proof := unwrap_flp_proof_share (snd hr) in
          let! query_rand := flp_query_rand E c i in
          let! joint_rand := flp_joint_rand E c i in
          unwrap (flp_query E (c_len c) beta_share proof query_rand joint_rand 2)))
       (filter (fun i => (start <=? i) && (i <? stop)) (seq 0 (length (tn_values n0)))).
(** src/collect.rs:360-370 and 520-530: par_iter over the frontier, with two par_iters over the reports inside *)
Definition crawl_children_t (E : env) (c : coll) (check_depth : bool) : task (list tree_node) :=
  lett pairs := par_map (fun node =>
      dot pure (if check_depth
                then let! d := unwrap (c_depth c) in assert_ (length (tn_path node) <=? d)
                else Ret tt);
      lett child_0 := make_tree_node_t E c node false in
      lett child_1 := make_tree_node_t E c node true in
      TDone (Ret [child_0; child_1])) (c_frontier c) in
  TDone (Ret (concat pairs)).
(** src/collect.rs:379-429: par_iter over the prefixes, par_iter over the clients inside *)
Definition y_checks_t (E : env) (c : coll) (level : nat) (next : list tree_node) : task (list (list (list fld))) :=
  par_mapi (fun prefix_index node =>
      lett node_left := pure (index next (2 * prefix_index)) in
      lett node_right := pure (index next (2 * prefix_index + 1)) in
      dot pure (debug_assert (dbg E) (length (tn_values node) =? length (tn_values node_left)));
      dot pure (debug_assert (dbg E) (length (tn_values node) =? length (tn_values node_right)));
      par_mapi (fun client_index y_p => pure (
          let! y_p0 := index (tn_values node_left) client_index in
          let! y_p1 := index (tn_values node_right) client_index in
          Ret (value_check c level y_p y_p0 y_p1))) (tn_values node))
    (c_frontier c).
(** src/collect.rs:339-517; the hashes are computed by a par_iter over the reports (431-469) *)
Definition tree_crawl_t (E : env) (c : coll) (split_by : nat) (malicious : list nat) (is_last : bool)
  : task (coll * (list (list fld) * list bytes * list nat)) :=
  lett c := pure (crawl_prepare c malicious is_last) in
  lett n0 := pure (index (c_frontier c) 0) in
  let level := length (tn_path n0) in
  dot pure (if dbg E then let! d := unwrap (c_depth c) in debug_assert true (level <? d) else Ret tt);
  lett next := crawl_children_t E c true in
  let cnt_values := map tn_value next in
  lett checks := y_checks_t E c level next in
  lett hashes := par_map (fun i => pure (client_hash E c level next checks i)) (honest_indices (c_reports c)) in
  dot pure (debug_assert (dbg E) (length (filter (fun r => fst r) (c_reports c)) =? length hashes));
  lett '(roots, indices) := pure (merkle_part E hashes split_by malicious is_last) in
  TDone (Ret (set_frontier (set_prev c (c_frontier c)) next, (cnt_values, roots, indices))).
(** src/collect.rs:519-553; par_iters at 522, 534 and 550 *)
Definition tree_crawl_last_t (E : env) (c : coll) : task (coll * list (list fld)) :=
  lett next := crawl_children_t E c false in
  lett proofs := par_map (fun i => pure (xor_proofs next i)) (honest_indices (c_reports c)) in
  TDone (Ret (set_frontier (set_final c proofs) next, map tn_value next)).

(** src/bin/server.rs:159-189 *)
Definition abm_validate_one_t (E : env) (c : coll) (attrs : list (list bool)) (i : nat)
  : task (nat * list (list fld) * list fld * bytes) :=
  lett hr := pure (index (c_reports c) i) in
  lett k := pure (unwrap_vidpf_key (snd hr)) in
  lett '(values_share, beta_share, tr) := eval_tree_t E k attrs (c_len c) [] in
  lett joint_rand := pure (flp_joint_rand E c i) in
  lett query_rand := pure (flp_query_rand E c i) in
  lett proof := pure (unwrap_flp_proof_share (snd hr)) in
  lett verifier_share := pure (unwrap (flp_query E (c_len c) beta_share proof query_rand joint_rand 2)) in
  TDone (Ret (i, values_share, verifier_share, blake3 E tr)).
(** src/bin/server.rs:156-198 *)
Definition abm_validate_t (E : env) (c : coll) (attrs : list (list bool)) (start stop : nat)
  : task (coll * list (list fld * bytes)) :=
  if stop <? start then TDone (Panic PArith) else
  lett results := par_map (abm_validate_one_t E c attrs) (seq start (stop - start)) in
  let c' := set_abm c (fold_left (fun m r => let '(i, vs, _, _) := r in m_insert m i vs) results (c_abm c)) in
  TDone (Ret (c', map (fun r => let '(_, _, ver, pf) := r in (ver, pf)) results)).
(** src/bin/server.rs:233-276 *)
Definition pm_validate_t (E : env) (c : coll) (sid : Z) (start stop : nat) : task (coll * list bytes) :=
  if stop <? start then TDone (Panic PArith) else
  if (sid <? 0)%Z then TDone (Panic PUnwrap) else
  if negb (hist_ok (c_len c)) then TDone (Panic PUnwrap) else
  lett results := par_map (fun i => pure (pm_validate_one E c (Z.to_nat sid) i)) (seq start (stop - start)) in
  TDone (Ret (set_pm c (fold_left (fun m r => m_insert m (fst r) (snd r)) results (c_pm c)),
              map (fun r => snd (snd r)) results)).

(** The handlers with parallel parts; the others are sequential and do not use the generator. *)
Definition body_t (E : env) (s : server) (q : request) : task (coll * response) :=
  let c := s_coll s in
  match q with
  | QTreeCrawl split mal last =>
      lett '(c', (v, r, i)) := tree_crawl_t E c split mal last in TDone (Ret (c', ACrawl v r i))
  | QRunFlpQueries start stop =>
      dot pure (debug_assert (dbg E) (start <? stop));
      lett v := run_flp_queries_t E c start stop in TDone (Ret (c, AFields v))
  | QTreeCrawlLast =>
      lett '(c', v) := tree_crawl_last_t E c in TDone (Ret (c', AFields v))
  | QAbmValidate attrs start stop =>
      lett '(c', v) := abm_validate_t E c attrs start stop in TDone (Ret (c', AAbm v))
  | QPmValidate start stop =>
      lett '(c', v) := pm_validate_t E c (s_id s) start stop in TDone (Ret (c', APm v))
  | _ => pure (body E s q)
  end.
