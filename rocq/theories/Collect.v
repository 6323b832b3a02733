(** Model of /repo/src/collect.rs. *)
From Verif Require Import Base Field Util Env Prg Vidpf Merkle.

(** src/collect.rs:34-47  TreeNode *)
Record tree_node := {
  tn_path : list bool;
  tn_value : list fld;
  tn_states : list eval_state;
  tn_values : list (list fld) }.

(** src/collect.rs:52-65  ReportShare *)
Inductive report_share :=
| RSMastic (nonce : bytes) (vkey : vidpf_key) (flp_proof_share : list fld) (jr_parts : bytes * bytes)
| RSPrio3 (nonce public_share_bytes input_share_bytes : bytes).

(** src/collect.rs:69-79 *)
Definition unwrap_vidpf_key (r : report_share) : outcome vidpf_key :=
  match r with RSMastic _ k _ _ => Ret k | RSPrio3 _ _ _ => Panic PExplicit end.
(** src/collect.rs:82-94 *)
Definition unwrap_flp_joint_rand_parts (r : report_share) : outcome (bytes * bytes) :=
  match r with RSMastic _ _ _ j => Ret j | RSPrio3 _ _ _ => Panic PExplicit end.
(** src/collect.rs:97-107 *)
Definition unwrap_flp_proof_share (r : report_share) : outcome (list fld) :=
  match r with RSMastic _ _ p _ => Ret p | RSPrio3 _ _ _ => Panic PExplicit end.
(** src/collect.rs:109-114 *)
Definition rs_nonce (r : report_share) : bytes :=
  match r with RSMastic n _ _ _ => n | RSPrio3 n _ _ => n end.

(** HashMap<usize, V> as an association list (iteration order unspecified in Rust; every use in the
    code folds with a commutative operation). *)
Definition m_get {V} (m : list (nat * V)) (k : nat) : option V :=
  match find (fun kv => fst kv =? k) m with Some kv => Some (snd kv) | None => None end.
Definition m_remove {V} (m : list (nat * V)) (k : nat) : list (nat * V) :=
  filter (fun kv => negb (fst kv =? k)) m.
Definition m_insert {V} (m : list (nat * V)) (k : nat) (v : V) : list (nat * V) := (k, v) :: m_remove m k.

(** src/collect.rs:117-152  KeyCollection.  [c_len] is mastic.input_len(), which for the histogram
    type is the number of buckets and determines the FLP instance. *)
Record coll := {
  c_len : nat;
  c_sid : Z;                                       (* server_id: i8 *)
  c_vk : bytes;                                    (* verify_key *)
  c_depth : option nat;
  c_reports : list (bool * report_share);          (* report_shares *)
  c_frontier : list tree_node;
  c_prev : list tree_node;                         (* prev_frontier *)
  c_final : list bytes;                            (* final_proofs *)
  c_abm : list (nat * list (list fld));            (* attribute_based_metrics_state *)
  c_pm : list (nat * (bytes * bytes)) }.           (* plain_metrics_state *)

Definition set_reports (c : coll) r : coll :=
  {| c_len := c_len c; c_sid := c_sid c; c_vk := c_vk c; c_depth := c_depth c; c_reports := r;
     c_frontier := c_frontier c; c_prev := c_prev c; c_final := c_final c; c_abm := c_abm c; c_pm := c_pm c |}.
Definition set_frontier (c : coll) f : coll :=
  {| c_len := c_len c; c_sid := c_sid c; c_vk := c_vk c; c_depth := c_depth c; c_reports := c_reports c;
     c_frontier := f; c_prev := c_prev c; c_final := c_final c; c_abm := c_abm c; c_pm := c_pm c |}.
Definition set_prev (c : coll) f : coll :=
  {| c_len := c_len c; c_sid := c_sid c; c_vk := c_vk c; c_depth := c_depth c; c_reports := c_reports c;
     c_frontier := c_frontier c; c_prev := f; c_final := c_final c; c_abm := c_abm c; c_pm := c_pm c |}.
Definition set_final (c : coll) f : coll :=
  {| c_len := c_len c; c_sid := c_sid c; c_vk := c_vk c; c_depth := c_depth c; c_reports := c_reports c;
     c_frontier := c_frontier c; c_prev := c_prev c; c_final := f; c_abm := c_abm c; c_pm := c_pm c |}.
Definition set_abm (c : coll) m : coll :=
  {| c_len := c_len c; c_sid := c_sid c; c_vk := c_vk c; c_depth := c_depth c; c_reports := c_reports c;
     c_frontier := c_frontier c; c_prev := c_prev c; c_final := c_final c; c_abm := m; c_pm := c_pm c |}.
Definition set_pm (c : coll) m : coll :=
  {| c_len := c_len c; c_sid := c_sid c; c_vk := c_vk c; c_depth := c_depth c; c_reports := c_reports c;
     c_frontier := c_frontier c; c_prev := c_prev c; c_final := c_final c; c_abm := c_abm c; c_pm := m |}.

(** src/collect.rs:154-161  Result *)
Record result := { res_path : list bool; res_value : list fld }.

(** src/collect.rs:164-183  new *)
Definition coll_new (len : nat) (sid : Z) (depth : option nat) (vk : bytes) : coll :=
  {| c_len := len; c_sid := sid; c_vk := vk; c_depth := depth; c_reports := []; c_frontier := [];
     c_prev := []; c_final := []; c_abm := []; c_pm := [] |}.

(** src/collect.rs:185-187 *)
Definition add_report_share (c : coll) (r : report_share) : coll :=
  set_reports c (c_reports c ++ [(true, r)]).

(** src/collect.rs:189-205  tree_init *)
Definition tree_init (c : coll) : outcome coll :=
  let! states := mapM (fun hr : bool * report_share => let! k := unwrap_vidpf_key (snd hr) in Ret (eval_init k)) (c_reports c) in
  Ret (set_frontier c [{| tn_path := []; tn_value := [of_N 0]; tn_states := states;
                          tn_values := map (fun _ => [of_N 0]) (c_reports c) |}]).

Definition zeros (n : nat) : list fld := repeat (of_N 0) n.

(** src/collect.rs:225-230: sum over the reports flagged honest *)
Definition sum_honest (n : nat) (vals : list (list fld)) (reports : list (bool * report_share)) : list fld :=
  fold_left (fun acc (vr : list fld * (bool * report_share)) => if fst (snd vr) then vec_add acc (fst vr) else acc) (combine vals reports) (zeros n).

(** src/collect.rs:207-242  make_tree_node *)
Definition make_tree_node (E : env) (c : coll) (parent : tree_node) (dir : bool) : outcome tree_node :=
  let bit_str := bits_to_bitstring (tn_path parent) ++ [bit_char dir] in
  let! res := mapMi (fun i (hr : bool * report_share) =>
                 let! k := unwrap_vidpf_key (snd hr) in
                 let! st := index (tn_states parent) i in
                 eval_bit E k st dir bit_str (c_len c)) 0 (c_reports c) in
  let key_states := map fst res in
  let key_values := map snd res in
  Ret {| tn_path := tn_path parent ++ [dir];
         tn_value := sum_honest (c_len c + 1) key_values (c_reports c);
         tn_states := key_states;
         tn_values := key_values |}.

(** src/collect.rs:291-326  flp_joint_rand *)
Definition flp_joint_rand (E : env) (c : coll) (i : nat) : outcome (list fld) :=
  let! hr := index (c_reports c) i in
  let! parts := unwrap_flp_joint_rand_parts (snd hr) in
  let! k := unwrap_vidpf_key (snd hr) in
  let '(p0, p1) :=
    if (c_sid c =? 0)%Z
    then (xof_bytes E (root_seed k) (repeat 0%N 16) (0%N :: rs_nonce (snd hr)) 16, snd parts)
    else (fst parts, xof_bytes E (root_seed k) (repeat 0%N 16) (1%N :: rs_nonce (snd hr)) 16) in
  Ret (xof_field E p0 p1 [] (flp_joint_rand_len E (c_len c))).

(** src/collect.rs:329-337  flp_query_rand *)
Definition flp_query_rand (E : env) (c : coll) (i : nat) : outcome (list fld) :=
  let! hr := index (c_reports c) i in
  Ret (xof_field E (c_vk c) (rs_nonce (snd hr)) [] (flp_query_rand_len E (c_len c))).

(** src/collect.rs:244-282  run_flp_queries *)
Definition run_flp_queries (E : env) (c : coll) (start stop : nat) : outcome (list (list fld)) :=
  let! n0 := index (c_frontier c) 0 in
  do! assert_ (length (tn_path n0) =? 0);
  do! debug_assert (dbg E) (length (c_frontier c) =? 1);
  let! node_left := make_tree_node E c n0 false in
  let! node_right := make_tree_node E c n0 true in
  do! debug_assert (dbg E) (length (tn_values n0) =? length (tn_values node_left));
  mapM (fun i =>
          let! y_p0 := index (tn_values node_left) i in
          let! y_p1 := index (tn_values node_right) i in
          let beta_share := zeros (c_len c) in
          let beta_share := vec_add beta_share y_p0 in
          let beta_share := vec_add beta_share y_p1 in
          let! hr := index (c_reports c) i in
          let! proof := unwrap_flp_proof_share (snd hr) in
          let! query_rand := flp_query_rand E c i in
          let! joint_rand := flp_joint_rand E c i in
          unwrap (flp_query E (c_len c) beta_share proof query_rand joint_rand 2))
       (filter (fun i => (start <=? i) && (i <? stop)) (seq 0 (length (tn_values n0)))).

(** src/collect.rs:348-353: clear the flag of each listed client *)
Definition reject_clients (c : coll) (malicious : list nat) : outcome coll :=
  let! reps := foldM (fun reps m => let! hr := index reps m in Ret (update m (false, snd hr) reps))
                     (c_reports c) malicious in
  Ret (set_reports c reps).

(** src/collect.rs:360-370 ([check_depth] = true) and 520-530 (false): both children of all nodes *)
Definition crawl_children (E : env) (c : coll) (check_depth : bool) : outcome (list tree_node) :=
  let! pairs := mapM (fun node =>
      do! (if check_depth
           then let! d := unwrap (c_depth c) in assert_ (length (tn_path node) <=? d)
           else Ret tt);
      let! child_0 := make_tree_node E c node false in
      let! child_1 := make_tree_node E c node true in
      Ret [child_0; child_1]) (c_frontier c) in
  Ret (concat pairs).

(** src/collect.rs:394-426: the value check of one client at one prefix *)
Definition value_check (c : coll) (level : nat) (y_p y_p0 y_p1 : list fld) : list fld :=
  let v := zeros (c_len c + 1) in
  if level =? 0 then
    if (c_sid c =? 0)%Z
    then vec_sub (vec_sub (vec_add v (repeat (of_N 1) (c_len c + 1))) y_p0) y_p1
    else vec_add (vec_add v y_p0) y_p1
  else
    if (c_sid c =? 0)%Z
    then vec_sub (vec_sub (vec_add v y_p) y_p0) y_p1
    else vec_sub (vec_add (vec_add v y_p0) y_p1) y_p.

(** src/collect.rs:379-429  all_y_checks *)
Definition y_checks (E : env) (c : coll) (level : nat) (next : list tree_node) : outcome (list (list (list fld))) :=
  mapMi (fun prefix_index node =>
      let! node_left := index next (2 * prefix_index) in
      let! node_right := index next (2 * prefix_index + 1) in
      do! debug_assert (dbg E) (length (tn_values node) =? length (tn_values node_left));
      do! debug_assert (dbg E) (length (tn_values node) =? length (tn_values node_right));
      mapMi (fun client_index y_p =>
          let! y_p0 := index (tn_values node_left) client_index in
          let! y_p1 := index (tn_values node_right) client_index in
          Ret (value_check c level y_p y_p0 y_p1)) 0 (tn_values node))
    0 (c_frontier c).

(** src/collect.rs:439-442 and 538-541: xor of the client's proofs over the new frontier *)
Definition xor_proofs (next : list tree_node) (client : nat) : outcome bytes :=
  foldM (fun proof node => let! st := index (tn_states node) client in
                           Ret (xor_in_place proof (es_proof st)))
        (repeat 0%N HASH_SIZE) next.

(** src/collect.rs:446-461: xor of the (8 low bytes of the) client's checks *)
Definition xor_checks (c : coll) (level : nat) (checks : list (list (list fld))) (client : nat) : outcome bytes :=
  foldM (fun check checks_for_prefix =>
      if level =? 0 then
        let! cc := index checks_for_prefix client in
        let! x := index cc (c_len c) in
        Ret (xor_in_place check (get_encoded x))
      else
        foldM (fun check i =>
            let! cc := index checks_for_prefix client in
            let! x := index cc i in
            Ret (xor_in_place check (get_encoded x))) check (seq 0 (c_len c)))
    (repeat 0%N 8) checks.

(** src/collect.rs:436-469: the verification string of one client *)
Definition client_hash (E : env) (c : coll) (level : nat) (next : list tree_node)
           (checks : list (list (list fld))) (client : nat) : outcome bytes :=
  let! proof := xor_proofs next client in
  let! check := xor_checks c level checks client in
  Ret (xor_vec proof (firstn HASH_SIZE (blake3 E check))).

(** indices of the reports whose flag is set: enumerate().filter(|(_, r)| r.0) *)
Definition honest_indices (reports : list (bool * report_share)) : list nat :=
  filter (fun i => match nth_error reports i with Some (h, _) => h | None => false end)
         (seq 0 (length reports)).

(** slice::chunks *)
Fixpoint chunks_fuel {A} (fuel n : nat) (l : list A) : list (list A) :=
  match fuel with
  | O => []
  | S f => match l with [] => [] | _ => firstn n l :: chunks_fuel f n (skipn n l) end
  end.
Definition chunks {A} (n : nat) (l : list A) : outcome (list (list A)) :=
  if n =? 0 then Panic PArith else Ret (chunks_fuel (length l) n l).

(** src/collect.rs:482-511: the Merkle roots *)
Definition merkle_part (E : env) (hashes : list bytes) (split_by : nat) (malicious : list nat) (is_last : bool)
  : outcome (list bytes * list nat) :=
  let split_by := if is_last then 1 else split_by in
  let num_leaves := 2 ^ clog2f E (length hashes) in
  if split_by =? 0 then Panic PArith else
  let chunk_sz := num_leaves / split_by in
  let! chunks_list := chunks chunk_sz hashes in
  if split_by =? 1 then
    let! c0 := index chunks_list 0 in
    let! root := unwrap (merkle_root E c0) in
    Ret ([root], [0])
  else
    foldM (fun acc i =>
        let '(roots, indices) := acc in
        let! cl := index chunks_list (i * 2) in
        let! root_left := unwrap (merkle_root E cl) in
        let roots := roots ++ [root_left] in
        let indices := indices ++ [i * 2] in
        if length chunks_list <=? i * 2 + 1 then Ret (roots, indices) else
        let! cr := index chunks_list (i * 2 + 1) in
        let! root_right := unwrap (merkle_root E cr) in
        Ret (roots ++ [root_right], indices ++ [i * 2 + 1]))
      ([], []) malicious.

(** src/collect.rs:345-355: rejections and roll-back before a (re-)crawl *)
Definition crawl_prepare (c : coll) (malicious : list nat) (is_last : bool) : outcome coll :=
  match malicious with
  | [] => Ret c
  | _ => let! c := (if is_last then reject_clients c malicious else Ret c) in
         Ret (set_frontier c (c_prev c))
  end.

(** src/collect.rs:339-517  tree_crawl *)
Definition tree_crawl (E : env) (c : coll) (split_by : nat) (malicious : list nat) (is_last : bool)
  : outcome (coll * (list (list fld) * list bytes * list nat)) :=
  let! c := crawl_prepare c malicious is_last in
  let! n0 := index (c_frontier c) 0 in
  let level := length (tn_path n0) in
  do! (if dbg E then let! d := unwrap (c_depth c) in debug_assert true (level <? d) else Ret tt);
  let! next := crawl_children E c true in
  let cnt_values := map tn_value next in
  let! checks := y_checks E c level next in
  let! hashes := mapM (client_hash E c level next checks) (honest_indices (c_reports c)) in
  do! debug_assert (dbg E) (length (filter (fun r => fst r) (c_reports c)) =? length hashes);
  let! '(roots, indices) := merkle_part E hashes split_by malicious is_last in
  Ret (set_frontier (set_prev c (c_frontier c)) next, (cnt_values, roots, indices)).

(** src/collect.rs:519-553  tree_crawl_last *)
Definition tree_crawl_last (E : env) (c : coll) : outcome (coll * list (list fld)) :=
  let! next := crawl_children E c false in
  let! proofs := mapM (xor_proofs next) (honest_indices (c_reports c)) in
  Ret (set_frontier (set_final c proofs) next, map tn_value next).

(** src/collect.rs:555-562  get_proofs *)
Definition get_proofs (c : coll) (start stop : nat) : list bytes :=
  if (start <? stop) && (stop <=? length (c_final c)) then slice start stop (c_final c) else [].

(** Vec::remove(i), in bounds *)
Definition vec_remove {A} (i : nat) (l : list A) : list A := firstn i l ++ skipn (S i) l.

(** loop of src/collect.rs:568-572, i from len-1 down to 0 *)
Fixpoint prune_loop {A} (alive : list bool) (n : nat) (l : list A) : outcome (list A) :=
  match n with
  | O => Ret l
  | S i => let! a := index alive i in
           if a then prune_loop alive i l
           else if i <? length l then prune_loop alive i (vec_remove i l) else Panic PIndex
  end.
(** src/collect.rs:564-573  tree_prune *)
Definition tree_prune (c : coll) (alive : list bool) : outcome coll :=
  do! assert_ (length alive =? length (c_frontier c));
  let! f := prune_loop alive (length alive) (c_frontier c) in
  Ret (set_frontier c f).

(** src/collect.rs:577-587  apply_flp_results *)
Fixpoint apply_keep (keep : list bool) (i : nat) (reps : list (bool * report_share))
  : outcome (list (bool * report_share)) :=
  match keep with
  | [] => Ret reps
  | alive :: keep' =>
      let! reps := (if negb alive then let! hr := index reps i in Ret (update i (false, snd hr) reps)
                    else Ret reps) in
      apply_keep keep' (S i) reps
  end.
Definition apply_flp_results (c : coll) (keep : list bool) : outcome coll :=
  do! assert_ (length keep =? length (c_reports c));
  let! reps := apply_keep keep 0 (c_reports c) in
  Ret (set_reports c reps).

(** u128::from(v) as u64 *)
Definition as_u64 (v : fld) : Z := (fval v mod 2 ^ 64)%Z.

(** src/collect.rs:591-606  keep_values *)
Definition keep_values (input_len : nat) (threshold : Z) (cnt0 cnt1 : list (list fld)) : outcome (list bool) :=
  mapM (fun vv : list fld * list fld => let! a := index (fst vv) input_len in
                  let! b := index (snd vv) input_len in
                  Ret (threshold <=? as_u64 (fadd a b))%Z) (combine cnt0 cnt1).

(** src/collect.rs:608-616  final_shares *)
Definition final_shares (c : coll) : list result :=
  map (fun n => {| res_path := tn_path n; res_value := tn_value n |}) (c_frontier c).

(** x > Field128::from(0) (derived order on canonical representatives) *)
Definition fpos (x : fld) : bool := (0 <? fval x)%Z.

(** src/collect.rs:619-643  final_values *)
Definition final_values (input_len : nat) (r0 r1 : list result) : outcome (list result) :=
  do! assert_ (length r0 =? length r1);
  let! rs := mapM (fun rr : result * result =>
      do! assert_ (path_eqb (res_path (fst rr)) (res_path (snd rr)));
      Ret {| res_path := res_path (fst rr);
             res_value := vec_add (vec_add (zeros (input_len + 1)) (res_value (fst rr))) (res_value (snd rr)) |})
    (combine r0 r1) in
  (* the closure indexes value[input_len], in bounds because the vector has input_len + 1 entries *)
  Ret (filter (fun r => fpos (nth input_len (res_value r) fzero)) rs).
