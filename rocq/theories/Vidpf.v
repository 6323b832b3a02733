(** Model of /repo/src/vidpf.rs. *)
From Verif Require Import Base Field Util Env Prg.

(** src/vidpf.rs:7-12  CorWord *)
Record cor_word := { cw_seed : bytes; cw_bits : bool * bool; cw_word : list fld }.

(** src/vidpf.rs:14-27  VidpfKey *)
Record vidpf_key := { key_idx : bool; root_seed : bytes; cor_words : list cor_word; cs : list bytes }.

(** src/vidpf.rs:29-42  EvalState *)
Record eval_state := { es_level : nat; es_seed : bytes; es_bit : bool; es_proof : bytes }.

(** src/vidpf.rs:168-175  TupleExt::get *)
Definition tget {A} (t : A * A) (b : bool) : A := if b then snd t else fst t.

(** body of the loop src/vidpf.rs:214-227 for one party: new seed and new control bit *)
Definition next_seed_bit (data : prg_output) (old_bit keep : bool) (cwseed : bytes) (cwbits : bool * bool)
  : bytes * bool :=
  let seed := tget (po_seeds data) keep in
  let seed := if old_bit then seed_xor seed cwseed else seed in
  let newbit := tget (po_bits data) keep in
  let newbit := if old_bit then xorb newbit (tget cwbits keep) else newbit in
  (seed, newbit).

(** src/vidpf.rs:190-243  gen_cor_word: returns the correction word and the new bits and seeds *)
Definition gen_cor_word (E : env) (bit : bool) (beta : list fld) (bits : bool * bool) (seeds : bytes * bytes)
  : outcome (cor_word * (bool * bool) * (bytes * bytes)) :=
  let! data0 := expand E (fst seeds) in
  let! data1 := expand E (snd seeds) in
  let keep := bit in
  let lose := negb keep in
  let cwseed := seed_xor (tget (po_seeds data0) lose) (tget (po_seeds data1) lose) in
  let cwbits := (xorb (xorb (xorb (fst (po_bits data0)) (fst (po_bits data1))) bit) true,
                 xorb (xorb (snd (po_bits data0)) (snd (po_bits data1))) bit) in
  let '(seed0, bit0) := next_seed_bit data0 (fst bits) keep cwseed cwbits in
  let '(seed1, bit1) := next_seed_bit data1 (snd bits) keep cwseed cwbits in
  let input_len := length beta in
  let! '(cseed0, cword0) := convert E seed0 input_len in
  let! '(cseed1, cword1) := convert E seed1 input_len in
  let word := beta ++ [fone] in
  let word := vec_sub word cword0 in
  let word := vec_add word cword1 in
  let word := if bit1 then vec_neg word else word in
  Ret ({| cw_seed := cwseed; cw_bits := cwbits; cw_word := word |}, (bit0, bit1), (cseed0, cseed1)).

(** hash of (prefix string, seed), src/vidpf.rs:267-278 and 331-335 *)
Definition node_hash (E : env) (bit_str seed : bytes) : bytes := blake3 E (bit_str ++ seed).

(** loop of src/vidpf.rs:262-284 *)
Fixpoint gen_loop (E : env) (alpha : list bool) (beta : list fld) (bit_str : bytes)
         (bits : bool * bool) (seeds : bytes * bytes) : outcome (list cor_word * list bytes) :=
  match alpha with
  | [] => Ret ([], [])
  | bit :: alpha' =>
      let bit_str := bit_str ++ [bit_char bit] in
      let! '(cw, bits', seeds') := gen_cor_word E bit beta bits seeds in
      let pi_0 := node_hash E bit_str (fst seeds') in
      let pi_1 := node_hash E bit_str (snd seeds') in
      let c := firstn HASH_SIZE (xor_vec pi_0 pi_1) in
      let! '(cws, css) := gen_loop E alpha' beta bit_str bits' seeds' in
      Ret (cw :: cws, c :: css)
  end.

(** src/vidpf.rs:251-300  VidpfKey::gen; the two root seeds (PrgSeed::random) are arguments *)
Definition gen (E : env) (seed0 seed1 : bytes) (alpha : list bool) (beta : list fld)
  : outcome (vidpf_key * vidpf_key) :=
  let! '(cws, css) := gen_loop E alpha beta [] (false, true) (seed0, seed1) in
  Ret ({| key_idx := false; root_seed := seed0; cor_words := cws; cs := css |},
       {| key_idx := true; root_seed := seed1; cor_words := cws; cs := css |}).

(** src/vidpf.rs:302-369  eval_bit.  The try_into() conversions to [u8; 16] cannot fail on
    16-byte proofs and correction seeds, which the types guarantee. *)
Definition eval_bit (E : env) (k : vidpf_key) (st : eval_state) (dir : bool) (bit_str : bytes) (input_len : nat)
  : outcome (eval_state * list fld) :=
  let! tau := expand_dir E (es_seed st) (negb dir) dir in
  let seed := tget (po_seeds tau) dir in
  let new_bit := tget (po_bits tau) dir in
  let! '(seed, new_bit) :=
    (if es_bit st
     then let! cw := index (cor_words k) (es_level st) in
          Ret (seed_xor seed (cw_seed cw), xorb new_bit (tget (cw_bits cw) dir))
     else Ret (seed, new_bit)) in
  let! '(new_seed, word) := convert E seed input_len in
  let! word := (if new_bit
                then let! cw := index (cor_words k) (es_level st) in Ret (vec_add word (cw_word cw))
                else Ret word) in
  let word := if key_idx k then vec_neg word else word in
  let pi_prime := firstn HASH_SIZE (node_hash E bit_str new_seed) in
  let! h := (if negb new_bit then Ret (xor_vec (es_proof st) pi_prime)
             else let! c := index (cs k) (es_level st) in Ret (xor_three_vecs (es_proof st) pi_prime c)) in
  let h2 := blake3 E h in
  let proof := xor_vec (firstn HASH_SIZE h2) (es_proof st) in
  Ret ({| es_level := es_level st + 1; es_seed := new_seed; es_bit := new_bit; es_proof := proof |}, word).

(** src/vidpf.rs:371-378  eval_init *)
Definition eval_init (k : vidpf_key) : eval_state :=
  {| es_level := 0; es_seed := root_seed k; es_bit := key_idx k; es_proof := repeat 0%N HASH_SIZE |}.

(** src/vidpf.rs:471-473 *)
Definition domain_size (k : vidpf_key) : nat := length (cor_words k).

(** loop of src/vidpf.rs:394-400 *)
Fixpoint eval_loop (E : env) (k : vidpf_key) (st : eval_state) (bit_str : bytes) (idx : list bool) (input_len : nat)
  : outcome (eval_state * bytes * list (list fld)) :=
  match idx with
  | [] => Ret (st, bit_str, [])
  | bit :: idx' =>
      let bit_str := bit_str ++ [bit_char bit] in
      let! '(st', word) := eval_bit E k st bit bit_str input_len in
      let! '(st'', bs, out) := eval_loop E k st' bit_str idx' input_len in
      Ret (st'', bs, word :: out)
  end.

(** src/vidpf.rs:380-406  eval; returns the outputs, the last word and the new *pi.
    idx.len() - 1 underflows on an empty index: panic in debug builds (already caught by the
    debug_assert); in release take(usize::MAX) yields nothing and last().unwrap() panics. *)
Definition eval (E : env) (k : vidpf_key) (idx : list bool) (pi : bytes) (input_len : nat)
  : outcome (list (list fld) * list fld * bytes) :=
  do! debug_assert (dbg E) (length idx <=? domain_size k);
  do! debug_assert (dbg E) (negb (length idx =? 0));
  let st := {| es_level := 0; es_seed := root_seed k; es_bit := key_idx k; es_proof := pi |} in
  let! '(st', bs, out) := eval_loop E k st [] (firstn (length idx - 1) idx) input_len in
  let! b := unwrap (nth_error idx (length idx - 1)) in
  let! '(_, lst) := eval_bit E k st' b bs input_len in
  Ret (out, lst, es_proof st').

(** src/vidpf.rs:44-62  VidpfEvalNode *)
Inductive enode :=
| ENode (bit_str : bytes) (word_share : option (list fld)) (path_check : option (list fld))
        (state : eval_state) (l r : option enode).
Definition n_word (n : enode) : option (list fld) := let '(ENode _ w _ _ _ _) := n in w.
Definition n_state (n : enode) : eval_state := let '(ENode _ _ _ s _ _) := n in s.

(** src/vidpf.rs:65-74 *)
Definition new_root_from_key (k : vidpf_key) : enode := ENode [] None None (eval_init k) None None.

(** src/vidpf.rs:76-87  next *)
Definition node_next (E : env) (k : vidpf_key) (bit_str : bytes) (st : eval_state) (bit : bool) (input_len : nat)
  : outcome enode :=
  let bit_str' := bit_str ++ [bit_char bit] in
  let! '(st', w) := eval_bit E k st bit bit_str' input_len in
  Ret (ENode bit_str' (Some w) None st' None None).

(** "if let (Some(path_check), Some(word_share)) = (&mut p, &child.word_share) { vec_sub }" *)
Definition sub_child (p : option (list fld)) (child : enode) : option (list fld) :=
  match p, n_word child with
  | Some pc, Some w => Some (vec_sub pc w)
  | _, _ => p
  end.

(** src/vidpf.rs:89-142  traverse.  The hasher is the list of bytes absorbed so far ([tr]).  The code
    returns a reference to the reached node; we return the updated node, the reached node and the
    updated transcript. *)
Fixpoint traverse (E : env) (k : vidpf_key) (input_len : nat) (path : list bool) (n : enode) (tr : bytes)
  : outcome (enode * enode * bytes) :=
  match path with
  | [] => Ret (n, n, tr)
  | b :: path' =>
      let '(ENode bs w pc st l r) := n in
      let p := match w, pc with Some x, None => Some x | _, _ => None end in
      let! '(lnode, p) := (match l with
                           | None => let! c := node_next E k bs st false input_len in Ret (c, sub_child p c)
                           | Some c => Ret (c, p) end) in
      let! '(rnode, p) := (match r with
                           | None => let! c := node_next E k bs st true input_len in Ret (c, sub_child p c)
                           | Some c => Ret (c, p) end) in
      let '(pc', tr') :=
        match p with
        | Some x => let x := if key_idx k then vec_neg x else x in
                    (Some x, tr ++ concat (map get_encoded x))
        | None => (pc, tr)
        end in
      if negb b then
        let! '(lnode', res, tr'') := traverse E k input_len path' lnode tr' in
        Ret (ENode bs w pc' st (Some lnode') (Some rnode), res, tr'')
      else
        let! '(rnode', res, tr'') := traverse E k input_len path' rnode tr' in
        Ret (ENode bs w pc' st (Some lnode) (Some rnode'), res, tr'')
  end.

(** loop of src/vidpf.rs:428-433 *)
Fixpoint eval_paths (E : env) (k : vidpf_key) (input_len : nat) (paths : list (list bool)) (root : enode) (tr : bytes)
  : outcome (enode * list (list fld) * bytes) :=
  match paths with
  | [] => Ret (root, [], tr)
  | path :: paths' =>
      do! assert_ (negb (length path =? 0));
      let! '(root, node, tr) := traverse E k input_len path root tr in
      let tr := tr ++ es_proof (n_state node) in
      let! w := unwrap (n_word node) in
      let! '(root, vals, tr) := eval_paths E k input_len paths' root tr in
      Ret (root, w :: vals, tr)
  end.

(** src/vidpf.rs:411-464  eval_tree; [tr] is what the caller's hasher has absorbed before; returns
    value shares, beta share and what it has absorbed afterwards. *)
Definition eval_tree (E : env) (k : vidpf_key) (paths : list (list bool)) (input_len : nat) (tr : bytes)
  : outcome (list (list fld) * list fld * bytes) :=
  let kidx := of_N (if key_idx k then 1 else 0) in
  let! '(root, vals, tr) := eval_paths E k input_len paths (new_root_from_key k) tr in
  let! '(root, nl, tr) := traverse E k input_len [false] root tr in
  let! y := unwrap (n_word nl) in
  let! '(root, nr, tr) := traverse E k input_len [true] root tr in
  let! yr := unwrap (n_word nr) in
  let y := vec_add y yr in
  let! counter := index y input_len in
  let counter := if key_idx k then fneg counter else counter in
  let counter := fadd counter kidx in
  let tr := tr ++ get_encoded counter in
  Ret (vals, firstn input_len y, tr).

(** src/vidpf.rs:466-469 *)
Definition gen_from_str (E : env) (seed0 seed1 : bytes) (s : bytes) (beta : list fld)
  : outcome (vidpf_key * vidpf_key) :=
  let! bits := string_to_bits s in gen E seed0 seed1 bits beta.
