(** Properties C54, C55 (src/lib.rs bits_to_bitstring, src/vidpf.rs, src/prg.rs). *)
From Verif Require Import Base Field Util Env Prg Vidpf SpecTree SpecHash HashFacts VidpfPropFacts RefEnv.

(** C54: the string of a path is one ASCII digit per bit ... *)
Theorem C54_bitstring : forall bits, bits_to_bitstring bits = map digit bits.
Proof. exact C54_bitstring_lemma. Qed.
Print Assumptions C54_bitstring.
(** ... what is hashed at a node determines the node and its seed ... *)
Theorem C54_preimage : forall p q s t, length s = length t -> map digit p ++ s = map digit q ++ t -> p = q /\ s = t.
Proof. exact C54_preimage_lemma. Qed.
Print Assumptions C54_preimage.
(** ... and, for any key at all, the proof of a path is that of the path one bit shorter updated with the
    hash of exactly that path's digits and the new seed, corrected by the key's word for that level if the
    control bit is set. *)
Theorem C54_proof : forall E k p d len st' bs out, env_ok E -> key_typed k ->
  eval_loop E k (eval_init k) [] (p ++ [d]) len = Ret (st', bs, out) ->
  exists st bs0 out0, eval_loop E k (eval_init k) [] p len = Ret (st, bs0, out0) /\ es_level st = length p /\
    es_proof st' = next_proof E (es_proof st)
      (xor_vec (firstn 16 (blake3 E (map digit (p ++ [d]) ++ es_seed st')))
               (if es_bit st' then nth (length p) (cs k) [] else repeat 0%N 16)).
Proof. exact C54_proof_lemma. Qed.
Print Assumptions C54_proof.
(** "10" on a key made with the real hash and cipher; "0" followed by a seed starting with the byte of "1"
    is a different node from "01" only because seeds have a fixed length *)
Example C54_example : C54_ex = true /\
  (map digit [false] ++ [49; 7]%N = map digit [false; true] ++ [7]%N).
Proof. split; [exact C54_example_proof|reflexivity]. Qed.

(** C55: two bits of every root seed have no influence on any evaluation ... *)
Theorem C55_eval : forall E k k', nearly_equal_keys k k' ->
  (forall path len, path <> [] -> eval_loop E k (eval_init k) [] path len = eval_loop E k' (eval_init k') [] path len) /\
  (forall idx pi len, 2 <= length idx -> eval E k idx pi len = eval E k' idx pi len) /\
  (forall paths len tr, eval_tree E k paths len tr = eval_tree E k' paths len tr).
Proof. exact C55_eval_lemma. Qed.
Print Assumptions C55_eval.
(** ... nor on the correction words. *)
Theorem C55_gen : forall E s0 s1 s0' s1' alpha beta k0 k1, nearly_equal s0 s0' -> nearly_equal s1 s1' ->
  Forall (fun b => (b < 256)%N) s0 -> Forall (fun b => (b < 256)%N) s0' -> Forall (fun b => (b < 256)%N) s1 -> Forall (fun b => (b < 256)%N) s1' ->
  gen E s0 s1 alpha beta = Ret (k0, k1) ->
  exists k0' k1', gen E s0' s1' alpha beta = Ret (k0', k1') /\ nearly_equal_keys k0 k0' /\ nearly_equal_keys k1 k1'.
Proof. exact C55_gen_lemma. Qed.
Print Assumptions C55_gen.
(** two different root seeds, first byte 3 and 1, and the same seed and proof below *)
Example C55_example : C55_ex = true.
Proof. exact C55_example_proof. Qed.
