(** Prio3 for the histogram type, used in plain metrics through Prio3::new_histogram(2, len, chunk_length)
    (/repo/src/bin/driver.rs:198-204,622,668, /repo/src/bin/server.rs:237-267,287-316).  The crate prio (0.15.3,
    /repo/Cargo.toml:25) is not in /repo; this follows the public VDAF draft it implements, for two aggregators.
    [p3_env] puts these functions into an environment.  Every function of this file is part of prio, except
    where noted. *)
From Verif Require Import Base Field Util Env Collect Server Driver Modes Histogram.

(** domain_separation_tag: version, class VDAF, the algorithm id of Prio3Histogram, the usage *)
Definition p3_dst (usage : N) : bytes := [7; 0; 0; 0; 0; 3; 0; usage]%N.
Definition dst_measurement_share : bytes := p3_dst 1.
Definition dst_proof_share : bytes := p3_dst 2.
Definition dst_joint_randomness : bytes := p3_dst 3.
Definition dst_prove_randomness : bytes := p3_dst 4.
Definition dst_query_randomness : bytes := p3_dst 5.
Definition dst_joint_rand_seed : bytes := p3_dst 6.
Definition dst_joint_rand_part : bytes := p3_dst 7.

(** Encode for a vector of field elements, and Decode: 16 little-endian bytes each, below the modulus *)
Definition enc_vec (l : list fld) : bytes := flat_map get_encoded l.

Definition dec_fld (b : bytes) : option fld := if (Z.of_N (le_num b) <? P)%Z then Some (of_N (le_num b)) else None.
Fixpoint dec_vec (n : nat) (b : bytes) : option (list fld) :=
  match n with
  | 0 => Some []
  | S n' => match dec_fld (firstn 16 b), dec_vec n' (skipn 16 b) with Some x, Some l => Some (x :: l) | _, _ => None end
  end.
(** the piece of a byte string that starts at a and is n long *)
Definition piece (a n : nat) (b : bytes) : bytes := firstn n (skipn a b).

(** the part of the joint randomness an aggregator derives from its blind, the nonce and its measurement share *)
Definition p3_part (E : env) (id : N) (blind nonce : bytes) (x : list fld) : bytes :=
  xof_bytes E blind dst_joint_rand_part (id :: nonce ++ enc_vec x) 16.
(** derive_joint_rand_seed *)
Definition p3_joint_seed (E : env) (part0 part1 : bytes) : bytes := xof_bytes E (repeat 0%N 16) dst_joint_rand_seed (part0 ++ part1) 16.
Definition p3_joint_rand (E : env) (seed : bytes) : list fld := xof_field E seed dst_joint_randomness [] 2.
Definition p3_query_rand (E : env) (vk nonce : bytes) : list fld := xof_field E vk dst_query_randomness nonce 1.
(** the measurement share and the proof share of the helper *)
Definition p3_helper_share (E : env) (len : nat) (seed : bytes) : list fld := xof_field E seed dst_measurement_share [1%N] len.
Definition p3_helper_proof (E : env) (len : nat) (seed : bytes) : list fld :=
  xof_field E seed dst_proof_share [1%N] (proof_len (chunk_length_plain len) len).

(** Prio3::shard with its randomness: measurement seed, proof seed and blind of the helper, blind of the leader,
    seed of the prover.  The result is encoded as in driver.rs:105-123. *)
Definition p3_shard (E : env) : sharding := fun len bucket nonce rand =>
  if negb ((bucket <? len) && (length rand =? 80)) then None else
  let c := chunk_length_plain len in
  let x := one_hot len bucket in
  let h := p3_helper_share E len (piece 0 16 rand) in
  let l := zip_sub x h in
  let part0 := p3_part E 0 (piece 48 16 rand) nonce l in
  let part1 := p3_part E 1 (piece 32 16 rand) nonce h in
  let jr := p3_joint_rand E (p3_joint_seed E part0 part1) in
  match hist_prove c len x (xof_field E (piece 64 16 rand) dst_prove_randomness [] (arity c)) jr with
  | None => None
  | Some proof =>
      let proof0 := zip_sub proof (p3_helper_proof E len (piece 16 16 rand)) in
      Some (part0 ++ part1, (enc_vec l ++ enc_vec proof0 ++ piece 48 16 rand, piece 0 48 rand))
  end.

(** Decode for the input share: measurement share, proof share and blind.  The leader gets the vectors, the
    helper the seeds. *)
Definition p3_input (E : env) (len id : nat) (inp : bytes) : option (list fld * list fld * bytes) :=
  let n := proof_len (chunk_length_plain len) len in
  match id with
  | 0 => if negb (length inp =? 16 * len + (16 * n + 16)) then None else
         match dec_vec len inp, dec_vec n (skipn (16 * len) inp) with
         | Some x, Some p => Some (x, p, piece (16 * len + 16 * n) 16 inp)
         | _, _ => None
         end
  | 1 => if negb (length inp =? 48) then None else
         Some (p3_helper_share E len (piece 0 16 inp), p3_helper_proof E len (piece 16 16 inp), piece 32 16 inp)
  | _ => None
  end.

(** decoding of the shares and prepare_init, server.rs:249-266.  The state holds the measurement share (prio keeps
    the helper's as a seed and expands it again in prepare_next) and the seed of the joint randomness; the share
    holds the verifier and the aggregator's own part. *)
Definition p3_concrete_init (E : env) (len : nat) (vk : bytes) (id : nat) (nonce pub inp : bytes) : option (bytes * bytes) :=
  if negb (length pub =? 32) then None else
  match p3_input E len id inp with
  | None => None
  | Some (x, p, blind) =>
      let own := p3_part E (N.of_nat id) blind nonce x in
      let seed := match id with 0 => p3_joint_seed E own (piece 16 16 pub) | _ => p3_joint_seed E (piece 0 16 pub) own end in
      match hist_query (chunk_length_plain len) len x p (p3_query_rand E vk nonce) (p3_joint_rand E seed) 2 with
      | None => None
      | Some v => Some (enc_vec x ++ seed, enc_vec v ++ own)
      end
  end.

(** Prio3PrepareShare::get_decoded_with_param, server.rs:294-297: the state knows the length of the verifier *)
Definition p3_concrete_decode (st share : bytes) : option bytes :=
  let n := verifier_len (chunk_length_plain (length st / 16 - 1)) in
  if negb (length share =? 16 * n + 16) then None else
  match dec_vec n share with Some _ => Some share | None => None end.

(** prepare_shares_to_prepare_message: the verifiers are added up and checked, the message is the seed of the
    joint randomness from the parts in the two shares *)
Definition p3_concrete_msg (E : env) (len : nat) (a b : bytes) : option bytes :=
  let n := verifier_len (chunk_length_plain len) in
  match dec_vec n a, dec_vec n b with
  | Some v0, Some v1 =>
      match hist_decide (chunk_length_plain len) (map (fun xy => fadd (fst xy) (snd xy)) (combine v0 v1)) with
      | Some true => Some (p3_joint_seed E (piece (16 * n) 16 a) (piece (16 * n) 16 b))
      | _ => None
      end
  | _, _ => None
  end.

(** prepare_next: an error unless the message is the seed this aggregator used; the output share is the
    measurement share *)
Definition p3_concrete_next (len : nat) (st msg : bytes) : option p3_transition :=
  if negb (bytes_eqb (piece (16 * len) 16 st) msg) then None else
  match dec_vec len st with Some x => Some (P3Finish x) | None => None end.

Definition p3_env (E : env) : env :=
  {| dbg := dbg E; x86 := x86 E; aes0 := aes0 E; blake3 := blake3 E; xof_bytes := xof_bytes E; xof_field := xof_field E; clog2f := clog2f E;
     flp_joint_rand_len := flp_joint_rand_len E; flp_query_rand_len := flp_query_rand_len E; flp_prove_rand_len := flp_prove_rand_len E;
     flp_prove := flp_prove E; flp_query := flp_query E; flp_decide := flp_decide E;
     p3_prep_init := p3_concrete_init E; p3_decode_share := p3_concrete_decode; p3_msg := p3_concrete_msg E; p3_next := p3_concrete_next |}.
