(** Properties C01-C05, C09, C10 (src/vidpf.rs). *)
From Verif Require Import Base Field Util Env Prg Vidpf SpecVidpf SpecTree VidpfFacts VidpfEvalFacts
  VidpfTreeFacts3 VidpfTreeFacts4 TreeIff VidpfPropFacts VidpfPropFacts2 RefEnv.

(** C01: for every alpha, beta, pair of root seeds, path, hash and cipher behaviour, build profile. *)
Theorem C01_point_function : forall E seed0 seed1 alpha beta k0 k1 path,
  env_ok E -> length seed0 = 16 -> length seed1 = 16 -> gen E seed0 seed1 alpha beta = Ret (k0, k1) ->
  1 <= length path <= length alpha ->
  exists st0 out0 st1 out1 w0 w1,
    eval_loop E k0 (eval_init k0) [] path (length beta) = Ret (st0, bits_to_bitstring path, out0) /\
    eval_loop E k1 (eval_init k1) [] path (length beta) = Ret (st1, bits_to_bitstring path, out1) /\
    nth_error out0 (length path - 1) = Some w0 /\ nth_error out1 (length path - 1) = Some w1 /\
    shares_of w0 w1 (point_value alpha beta path).
Proof. exact C01_lemma. Qed.
Print Assumptions C01_point_function.

(** C02 *)
Theorem C02_proofs_agree : forall E seed0 seed1 alpha beta k0 k1 path st0 bs0 out0 st1 bs1 out1,
  env_ok E -> length seed0 = 16 -> length seed1 = 16 -> gen E seed0 seed1 alpha beta = Ret (k0, k1) ->
  length path <= length alpha ->
  eval_loop E k0 (eval_init k0) [] path (length beta) = Ret (st0, bs0, out0) ->
  eval_loop E k1 (eval_init k1) [] path (length beta) = Ret (st1, bs1, out1) ->
  es_proof st0 = es_proof st1 /\ length (es_proof st0) = 16.
Proof. exact C02_lemma. Qed.
Print Assumptions C02_proofs_agree.

(** a 3-bit alpha with two buckets, on and off the path: shares reconstruct, proofs agree, and the
    first share alone is not the value *)
Example C01_C02_example :
  match gen (ref_env true true) (ex_seed 3) (ex_seed 50) ex_alpha ex_beta with
  | Ret (k0, k1) =>
      forallb (ex_check (ref_env true true) k0 k1)
              [[true; false]; [true; true]; [true; false; true]; [false; false; false]] = true
  | Panic _ => False
  end.
Proof. exact C01_example_proof. Qed.

(** C03: success, one share per proper prefix plus the last one, equal final pi ... *)
Theorem C03_eval : forall E seed0 seed1 alpha beta k0 k1 idx pi,
  env_ok E -> length seed0 = 16 -> length seed1 = 16 -> gen E seed0 seed1 alpha beta = Ret (k0, k1) ->
  1 <= length idx <= length alpha -> length pi = 16 ->
  exists out0 lst0 out1 lst1 pi',
    eval E k0 idx pi (length beta) = Ret (out0, lst0, pi') /\
    eval E k1 idx pi (length beta) = Ret (out1, lst1, pi') /\
    length out0 = length idx - 1 /\ length out1 = length idx - 1 /\
    (forall i w0 w1, nth_error out0 i = Some w0 -> nth_error out1 i = Some w1 ->
      shares_of w0 w1 (point_value alpha beta (firstn (i + 1) idx))) /\
    shares_of lst0 lst1 (point_value alpha beta idx).
Proof. exact C03_lemma. Qed.
Print Assumptions C03_eval.
(** ... and that pi does not depend on the last bit: whatever the key, it is the proof accumulated over
    the first |idx| - 1 bits. *)
Theorem C03_pi_one_bit_short : forall E k p d pi len out lst pi',
  eval E k (p ++ [d]) pi len = Ret (out, lst, pi') ->
  exists st bs, eval_loop E k {| es_level := 0; es_seed := root_seed k; es_bit := key_idx k; es_proof := pi |} [] p len
                  = Ret (st, bs, out) /\ pi' = es_proof st.
Proof. exact C03_pi_lemma. Qed.
Print Assumptions C03_pi_one_bit_short.
Example C03_example :
  match gen (ref_env true true) (ex_seed 3) (ex_seed 50) ex_alpha ex_beta with
  | Ret (k0, k1) => ex_eval_check (ref_env true true) k0 k1 (ex_seed 9) [true; false; false] = true
  | Panic _ => False
  end.
Proof. exact C03_example_proof. Qed.

(** C04: any list of paths, in any order, with repetitions and prefixes of each other *)
Theorem C04_eval_tree : forall E seed0 seed1 alpha beta k0 k1 paths tr,
  env_ok E -> length seed0 = 16 -> length seed1 = 16 -> gen E seed0 seed1 alpha beta = Ret (k0, k1) ->
  alpha <> [] -> (forall path, In path paths -> 1 <= length path <= length alpha) ->
  exists v0 b0 v1 b1 t,
    eval_tree E k0 paths (length beta) tr = Ret (v0, b0, t) /\
    eval_tree E k1 paths (length beta) tr = Ret (v1, b1, t) /\
    length v0 = length paths /\ length v1 = length paths /\
    (forall i path w0 w1, nth_error paths i = Some path -> nth_error v0 i = Some w0 -> nth_error v1 i = Some w1 ->
       shares_of w0 w1 (point_value alpha beta path)) /\
    shares_of b0 b1 beta.
Proof. exact C04_lemma. Qed.
Print Assumptions C04_eval_tree.

(** C05: arbitrary keys (16-byte fields as the types require, indices false and true): if both
    transcripts are equal, every interior node visited is consistent, the root counter is 1, and the
    proofs at the requested paths are equal. *)
Theorem C05_transcript_soundness : forall E k0 k1 len paths tr v0 b0 t v1 b1,
  env_ok E -> key_typed k0 -> key_typed k1 -> key_idx k0 = false -> key_idx k1 = true ->
  eval_tree E k0 paths len tr = Ret (v0, b0, t) -> eval_tree E k1 paths len tr = Ret (v1, b1, t) ->
  (forall path q, In path paths -> q <> [] -> proper_prefix q path ->
     exists w0 l0 r0 w1 l1 r1 a b c a' b' c',
       share_at E k0 len q = Ret (w0, a) /\ share_at E k0 len (q ++ [false]) = Ret (l0, b) /\
       share_at E k0 len (q ++ [true]) = Ret (r0, c) /\
       share_at E k1 len q = Ret (w1, a') /\ share_at E k1 len (q ++ [false]) = Ret (l1, b') /\
       share_at E k1 len (q ++ [true]) = Ret (r1, c') /\
       length w0 = len + 1 /\ length w1 = len + 1 /\
       vec_add w0 w1 = vec_add (vec_add l0 l1) (vec_add r0 r1)) /\
  (exists l0 r0 l1 r1 a b a' b',
       share_at E k0 len [false] = Ret (l0, a) /\ share_at E k0 len [true] = Ret (r0, b) /\
       share_at E k1 len [false] = Ret (l1, a') /\ share_at E k1 len [true] = Ret (r1, b') /\
       nth_error (vec_add (vec_add l0 r0) (vec_add l1 r1)) len = Some (of_Z 1) /\
       b0 = firstn len (vec_add l0 r0) /\ b1 = firstn len (vec_add l1 r1)) /\
  (length v0 = length paths /\ length v1 = length paths /\
   forall i path w0 w1, nth_error paths i = Some path -> nth_error v0 i = Some w0 -> nth_error v1 i = Some w1 ->
     exists pf, share_at E k0 len path = Ret (w0, pf) /\ share_at E k1 len path = Ret (w1, pf)).
Proof. exact C05_lemma. Qed.
Print Assumptions C05_transcript_soundness.
(** ... and conversely: the transcripts are equal exactly when the sums match at every interior node visited,
    the root counter is 1 and the proofs at the requested paths are equal. *)
Theorem C05_transcript_iff : forall E k0 k1 len paths tr v0 b0 t0 v1 b1 t1,
  env_ok E -> key_typed k0 -> key_typed k1 -> key_idx k0 = false -> key_idx k1 = true ->
  eval_tree E k0 paths len tr = Ret (v0, b0, t0) -> eval_tree E k1 paths len tr = Ret (v1, b1, t1) ->
  t0 = t1 <->
  (forall path q w0 l0 r0 w1 l1 r1 a b c a' b' c', In path paths -> q <> [] -> proper_prefix q path ->
     share_at E k0 len q = Ret (w0, a) -> share_at E k0 len (q ++ [false]) = Ret (l0, b) -> share_at E k0 len (q ++ [true]) = Ret (r0, c) ->
     share_at E k1 len q = Ret (w1, a') -> share_at E k1 len (q ++ [false]) = Ret (l1, b') -> share_at E k1 len (q ++ [true]) = Ret (r1, c') ->
     vec_add w0 w1 = vec_add (vec_add l0 l1) (vec_add r0 r1)) /\
  (forall l0 r0 l1 r1 a b a' b',
     share_at E k0 len [false] = Ret (l0, a) -> share_at E k0 len [true] = Ret (r0, b) ->
     share_at E k1 len [false] = Ret (l1, a') -> share_at E k1 len [true] = Ret (r1, b') ->
     nth_error (vec_add (vec_add l0 r0) (vec_add l1 r1)) len = Some (of_Z 1)) /\
  (forall path w0 pf0 w1 pf1, In path paths -> share_at E k0 len path = Ret (w0, pf0) -> share_at E k1 len path = Ret (w1, pf1) -> pf0 = pf1).
Proof. exact C05_iff_lemma. Qed.
Print Assumptions C05_transcript_iff.

(** nested, repeated and unordered paths: equal 177-byte transcripts and beta for the honest pair;
    different transcripts after one correction word was negated in both keys *)
Example C04_C05_example :
  match gen (ref_env true true) (ex_seed 3) (ex_seed 50) ex_alpha ex_beta with
  | Ret (k0, k1) => ex_trees (ref_env true true) k0 k1 = Some (true, 177%Z, [0; 1]%Z) /\
                    ex_trees (ref_env true true) (corrupt_word k0) (corrupt_word k1) = Some (false, 177%Z, [0; 1]%Z)
  | Panic _ => False
  end.
Proof. exact C04_example_proof. Qed.

(** C09 (false of the code): either key alone determines alpha, for every alpha, beta and seeds; one
    fixed function reads it off. *)
Theorem C09_alpha_leaks_refuted : exists reveal : vidpf_key -> list bool,
  forall E seed0 seed1 alpha beta k0 k1,
    env_ok E -> length seed0 = 16 -> length seed1 = 16 -> gen E seed0 seed1 alpha beta = Ret (k0, k1) ->
    reveal k0 = alpha /\ reveal k1 = alpha.
Proof. exact C09_lemma'. Qed.
Print Assumptions C09_alpha_leaks_refuted.
Example C09_example :
  match gen (ref_env true true) (ex_seed 3) (ex_seed 50) ex_alpha ex_beta with
  | Ret (k0, _) => map (fun cw => snd (cw_bits cw)) (cor_words k0) = [true; false; true]
  | Panic _ => False
  end.
Proof. exact C09_example_proof. Qed.

(** C10 *)
Theorem C10_key_pair : forall E seed0 seed1 alpha beta,
  env_ok E -> length seed0 = 16 -> length seed1 = 16 ->
  exists k0 k1, gen E seed0 seed1 alpha beta = Ret (k0, k1) /\
    key_idx k0 = false /\ key_idx k1 = true /\ root_seed k0 = seed0 /\ root_seed k1 = seed1 /\
    cor_words k0 = cor_words k1 /\ cs k0 = cs k1 /\
    length (cor_words k0) = length alpha /\ length (cs k0) = length alpha /\
    (forall cw, In cw (cor_words k0) -> length (cw_word cw) = length beta + 1 /\ length (cw_seed cw) = 16) /\
    (forall c, In c (cs k0) -> length c = 16) /\ domain_size k0 = length alpha.
Proof. exact C10_lemma. Qed.
Print Assumptions C10_key_pair.
Example C10_example : env_ok (ref_env true true) /\ length (ex_seed 3) = 16 /\ length (ex_seed 50) = 16.
Proof. exact C10_example_proof. Qed.
