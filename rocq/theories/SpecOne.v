(** Specification vocabulary for C61: what a pair of keys that passes all checks of attribute-based metrics
    can do. *)
From Verif Require Import Base Field Util Env Prg Vidpf SpecVidpf SpecTree SpecHash Merkle Collect Server Driver Modes SpecCollect SpecMetrics SpecLevel SpecWhh SpecModes.

(** the state of an aggregator at a node *)
Definition node_state (E : env) (k : vidpf_key) (len : nat) (q : list bool) (st : eval_state) : Prop :=
  exists bs out, eval_loop E k (eval_init k) [] q len = Ret (st, bs, out).

(** the 16-byte hash taken at a node, and what it contributes to the proof *)
Definition hash16 (E : env) (q : list bool) (seed : bytes) : bytes := firstn 16 (blake3 E (map digit q ++ seed)).
Definition mask (k : vidpf_key) (q : list bool) (bit : bool) : bytes := if bit then nth (length q - 1) (cs k) [] else repeat 0%N 16.
Definition contribution (E : env) (k : vidpf_key) (q : list bool) (st : eval_state) : bytes :=
  xor_vec (hash16 E q (es_seed st)) (mask k q (es_bit st)).

(** the seed from which the child in direction d and its word are derived *)
Definition pre_seed (E : env) (k : vidpf_key) (st : eval_state) (d : bool) : bytes :=
  match expand E (es_seed st) with
  | Ret o => let s := if d then snd (po_seeds o) else fst (po_seeds o) in
             if es_bit st then match nth_error (cor_words k) (es_level st) with Some cw => xor_vec s (cw_seed cw) | None => s end else s
  | Panic _ => []
  end.

(** the two keys carry the same public part *)
Definition same_public (k0 k1 : vidpf_key) : Prop := cor_words k0 = cor_words k1 /\ cs k0 = cs k1.

(** q is a node below the root on one of the paths *)
Definition under (paths : list (list bool)) (q : list bool) : Prop := q <> [] /\ exists path, In path paths /\ is_prefix q path = true.
(** the nodes on the way to path have their siblings looked at too *)
Definition both_sides (paths : list (list bool)) (path : list bool) : Prop :=
  forall q d, is_prefix (q ++ [d]) path = true -> under paths (q ++ [negb d]).

(** No two hashes or generator outputs that this very evaluation compares coincide by accident:
    hashes of different seeds at one node; xors of such hashes at two nodes of a level; the hashes chained
    along a path; seeds derived from seeds with different words. *)
Definition no_coincidence (E : env) (k0 k1 : vidpf_key) (len : nat) (nodes : list bool -> Prop) : Prop :=
  (forall q s0 s1, nodes q -> node_state E k0 len q s0 -> node_state E k1 len q s1 ->
     hash16 E q (es_seed s0) = hash16 E q (es_seed s1) -> es_seed s0 = es_seed s1) /\
  (forall q r s0 s1 u0 u1, nodes q -> nodes r -> q <> r -> length q = length r ->
     node_state E k0 len q s0 -> node_state E k1 len q s1 -> node_state E k0 len r u0 -> node_state E k1 len r u1 ->
     es_seed s0 <> es_seed s1 -> es_seed u0 <> es_seed u1 ->
     xor_vec (hash16 E q (es_seed s0)) (hash16 E q (es_seed s1)) <> xor_vec (hash16 E r (es_seed u0)) (hash16 E r (es_seed u1))) /\
  (forall q d s0 s1 u0 u1, nodes (q ++ [d]) ->
     node_state E k0 len q s0 -> node_state E k1 len q s1 -> node_state E k0 len (q ++ [d]) u0 -> node_state E k1 len (q ++ [d]) u1 ->
     next_proof E (es_proof s0) (contribution E k0 (q ++ [d]) u0) = next_proof E (es_proof s1) (contribution E k1 (q ++ [d]) u1) ->
     xor_vec (es_proof s0) (contribution E k0 (q ++ [d]) u0) = xor_vec (es_proof s1) (contribution E k1 (q ++ [d]) u1)) /\
  (forall q d s0 s1 t w0 w1, nodes (q ++ [d]) -> node_state E k0 len q s0 -> node_state E k1 len q s1 ->
     convert E (pre_seed E k0 s0 d) len = Ret (t, w0) -> convert E (pre_seed E k1 s1 d) len = Ret (t, w1) -> w0 = w1).

(** *** in a run *)
(** a report whose two keys carry the same public part with no zero hash in it and for which nothing
    coincides by accident: neither in the evaluation, nor the hashes of different transcripts, and the weight
    check passes only if the shares add up to a single 1 *)
Definition well_checked (E : env) (len : nat) (attrs : list (list bool)) (r : report_share * report_share) (w : row) : Prop :=
  exists n0 k0 p0 j0 n1 k1 p1 j1, r = (RSMastic n0 k0 p0 j0, RSMastic n1 k1 p1 j1) /\
    key_typed k0 /\ key_typed k1 /\ key_idx k0 = false /\ key_idx k1 = true /\ same_public k0 k1 /\
    (forall path i, In path attrs -> i < length path -> nth i (cs k0) [] <> repeat 0%N 16) /\
    no_coincidence E k0 k1 len (under attrs) /\
    forall v0 b0 t0 v1 b1 t1, eval_tree E k0 attrs len [] = Ret (v0, b0, t0) -> eval_tree E k1 attrs len [] = Ret (v1, b1, t1) ->
      (blake3 E t0 = blake3 E t1 -> t0 = t1) /\ (w_fit w = true -> exists m, m < len /\ vec_add b0 b1 = one_hot len m).
(** v is what a report counts for: nothing if it was dropped *)
Definition vote_of (w : row) (v : option (list bool * nat)) : Prop := v = None <-> kept true w = false.

(** *** what a client can do with zero hashes *)
(** one half of a field element: the element which, added to itself, gives x *)
Definition half (x : fld) : fld := fmul x (of_Z ((P + 1) / 2)).
Fixpoint halved (n : nat) (x : fld) : fld := match n with 0 => x | S n => half (halved n x) end.
(** a pattern fixes some bits of a string and leaves others open *)
Fixpoint fits (pat : list (option bool)) (q : list bool) : bool :=
  match q, pat with
  | [], _ => true
  | _ :: _, [] => false
  | _ :: q', None :: pat' => fits pat' q'
  | d :: q', Some b :: pat' => Bool.eqb d b && fits pat' q'
  end.
Definition open_bits (pat : list (option bool)) (n : nat) : nat := length (filter (fun o : option bool => match o with None => true | Some _ => false end) (firstn n pat)).
(** the weights and the counter spread evenly over all strings that fit the pattern *)
Definition spread_value (pat : list (option bool)) (beta : list fld) (q : list bool) : list fld :=
  if fits pat q then map (halved (open_bits pat (length q))) (beta ++ [of_Z 1]) else repeat (of_Z 0) (length beta + 1).
