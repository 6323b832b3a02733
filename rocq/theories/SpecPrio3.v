(** Specification vocabulary for plain metrics with Prio3 itself (C79). *)
From Verif Require Import Base Field Util Env Collect Server Driver Modes Histogram Prio3 SpecPrg SpecVidpf SpecWhh SpecModes SpecHist.

(** the random seeds of a client (Prio3::shard) *)
Definition p3_seed (cl : pm_client) : bytes := piece 0 16 (pc_rand cl).
Definition p3_proof_seed (cl : pm_client) : bytes := piece 16 16 (pc_rand cl).
Definition p3_helper_blind (cl : pm_client) : bytes := piece 32 16 (pc_rand cl).
Definition p3_leader_blind (cl : pm_client) : bytes := piece 48 16 (pc_rand cl).
Definition p3_prove_seed (cl : pm_client) : bytes := piece 64 16 (pc_rand cl).
(** the point at which the aggregators query the proof of a client *)
Definition p3_point (E : env) (vk : bytes) (cl : pm_client) : fld := nth 0 (p3_query_rand E vk (pc_nonce cl)) fzero.

(** all that is asked of a client: a bucket of the histogram, enough randomness, and a query point that is not one of
    the points the prover interpolates at *)
Definition p3_fair (E : env) (len : nat) (vk : bytes) (cl : pm_client) : Prop :=
  pc_bucket cl < len /\ length (pc_rand cl) = 80 /\ ~ on_domain (chunk_length_plain len) len (p3_point E vk cl).

(** *** a spoilt upload: the lowest bit of the helper's measurement seed is flipped *)
(** the leader's share, the helper's share, and the share the helper expands from the flipped seed *)
Definition p3_leader_x (E : env) (len : nat) (cl : pm_client) : list fld := zip_sub (one_hot len (pc_bucket cl)) (p3_helper_share E len (p3_seed cl)).
Definition p3_helper_x (E : env) (len : nat) (cl : pm_client) : list fld := p3_helper_share E len (p3_seed cl).
Definition p3_wrong_x (E : env) (len : nat) (cl : pm_client) : list fld := p3_helper_share E len (spoil (p3_seed cl)).
(** the joint randomness of the client and of the leader, and the one the helper derives from the wrong share *)
Definition p3_leader_part (E : env) (len : nat) (cl : pm_client) : bytes := p3_part E 0 (p3_leader_blind cl) (pc_nonce cl) (p3_leader_x E len cl).
Definition p3_joint (E : env) (len : nat) (cl : pm_client) : list fld :=
  p3_joint_rand E (p3_joint_seed E (p3_leader_part E len cl) (p3_part E 1 (p3_helper_blind cl) (pc_nonce cl) (p3_helper_x E len cl))).
Definition p3_wrong_joint (E : env) (len : nat) (cl : pm_client) : list fld :=
  p3_joint_rand E (p3_joint_seed E (p3_leader_part E len cl) (p3_part E 1 (p3_helper_blind cl) (pc_nonce cl) (p3_wrong_x E len cl))).
(** the proof of a client *)
Definition p3_proof (E : env) (len : nat) (cl : pm_client) (proof : list fld) : Prop :=
  hist_prove (chunk_length_plain len) len (one_hot len (pc_bucket cl))
    (xof_field E (p3_prove_seed cl) dst_prove_randomness [] (2 * chunk_length_plain len)) (p3_joint E len cl) = Some proof.
(** the check passes at query point r all the same *)
Definition p3_missed (E : env) (len : nat) (cl : pm_client) (r : fld) : Prop :=
  let c := chunk_length_plain len in let p1 := p3_helper_proof E len (p3_proof_seed cl) in
  exists proof v0 v1, p3_proof E len cl proof /\
    hist_query c len (p3_leader_x E len cl) (zip_sub proof p1) [r] (p3_joint E len cl) 2 = Some v0 /\
    hist_query c len (p3_wrong_x E len cl) p1 [r] (p3_wrong_joint E len cl) 2 = Some v1 /\ hist_decide c (add_shares v0 v1) = Some true.
(** the products of the range check in one chunk, for shares checked with different joint randomness *)
Definition p3_chunk (c : nat) (x0 x1 : list fld) (a0 b0 : fld) (k : nat) : fld :=
  fold_right fadd fzero (map (fun j => let i := k * c + j in let u := nth i x0 fzero in let v := nth i x1 fzero in
    fmul (fadd (fmul (fpow a0 (i + 1)) u) (fmul (fpow b0 (i + 1)) v)) (fsub (fadd u v) fone)) (seq 0 c)).

(** a choice points to a client, and if the upload is spoilt it does not pass *)
Definition p3_fair_choice (E : env) (len : nat) (vk : bytes) (clients : list pm_client) (ch : choice) : Prop :=
  ch_idx ch < length clients /\
  (ch_malicious ch = true -> forall cl, nth_error clients (ch_idx ch) = Some cl -> ~ p3_missed E len cl (p3_point E vk cl)).

(** *** both aggregators finish the preparation of one report, whoever made it *)
Definition p3_finished (E : env) (len : nat) (vk nonce pub0 pub1 i0 i1 : bytes) (x0 x1 : list fld) : Prop :=
  exists st0 sh0 st1 sh1 m, p3_concrete_init E len vk 0 nonce pub0 i0 = Some (st0, sh0) /\ p3_concrete_init E len vk 1 nonce pub1 i1 = Some (st1, sh1) /\
    p3_concrete_msg E len sh0 sh1 = Some m /\ p3_concrete_next len st0 m = Some (P3Finish x0) /\ p3_concrete_next len st1 m = Some (P3Finish x1).
(** What the joint randomness is made of, written out: each aggregator hashes its blind, its index, the nonce and its
    measurement share; the seed is the hash of both. *)
Definition bound_part (E : env) (id : N) (blind nonce : bytes) (x : list fld) : bytes :=
  xof_bytes E blind [7; 0; 0; 0; 0; 3; 0; 7]%N (id :: nonce ++ flat_map get_encoded x) 16.
Definition bound_seed (E : env) (nonce b0 b1 : bytes) (x0 x1 : list fld) : bytes :=
  xof_bytes E (repeat 0%N 16) [7; 0; 0; 0; 0; 3; 0; 6]%N (bound_part E 0 b0 nonce x0 ++ bound_part E 1 b1 nonce x1) 16.
Definition bound_joint (E : env) (seed : bytes) (i : nat) : fld := nth i (xof_field E seed [7; 0; 0; 0; 0; 3; 0; 3]%N [] 2) fzero.
Definition bound_point (E : env) (vk nonce : bytes) : fld := nth 0 (xof_field E vk [7; 0; 0; 0; 0; 3; 0; 5]%N nonce 1) fzero.
(** the bytes sent to the leader hold the measurement share x, the proof share p and the blind b ... *)
Definition leader_message (len : nat) (i0 : bytes) (x p : list fld) (b : bytes) : Prop :=
  i0 = flat_map get_encoded x ++ flat_map get_encoded p ++ b /\ length x = len /\ length p = proof_len (chunk_length_plain len) len /\ length b = 16.
(** ... and those sent to the helper two seeds for them, and the blind *)
Definition helper_message (E : env) (len : nat) (i1 : bytes) (x p : list fld) (b : bytes) : Prop :=
  exists s t, i1 = s ++ t ++ b /\ length s = 16 /\ length t = 16 /\ length b = 16 /\
    x = xof_field E s [7; 0; 0; 0; 0; 3; 0; 1]%N [1%N] len /\ p = xof_field E t [7; 0; 0; 0; 0; 3; 0; 2]%N [1%N] (proof_len (chunk_length_plain len) len).
