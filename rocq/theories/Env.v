(** The environment: build configuration and the external functions the code calls.
    Every theorem quantifies over all environments (subject to the explicit hypotheses below). *)
From Verif Require Import Base Field Util.

Inductive p3_transition := P3Finish (out : list fld) | P3Continue.

Record env := {
  (** cfg(debug_assertions) *)
  dbg : bool;
  (** cfg(target_arch = "x86_64"), src/prg.rs:1-29 *)
  x86 : bool;
  (** Aes128::new([0;16]).encrypt_block, src/prg.rs:218,252 (crate aes) *)
  aes0 : bytes -> bytes;
  (** BLAKE3 of a byte string, 32 bytes out (crate blake3; Hasher::update concatenates) *)
  blake3 : bytes -> bytes;
  (** XofShake128::init(seed, dst); update(data)...; into_seed_stream(); fill_bytes(n bytes) (prio) *)
  xof_bytes : bytes -> bytes -> bytes -> nat -> bytes;
  (** ... into_field_vec(n) (prio) *)
  xof_field : bytes -> bytes -> bytes -> nat -> list fld;
  (** (n as f32).log2().ceil() as usize, src/collect.rs:485 *)
  clog2f : nat -> nat;
  (** prio::flp::Type for Histogram(len, chunk 2), src/lib.rs:63-98 *)
  flp_joint_rand_len : nat -> nat;
  flp_query_rand_len : nat -> nat;
  flp_prove_rand_len : nat -> nat;
  flp_prove : nat -> list fld -> list fld -> list fld -> option (list fld);
  flp_query : nat -> list fld -> list fld -> list fld -> list fld -> nat -> option (list fld);
  flp_decide : nat -> list fld -> option bool;
  (** Prio3 histogram (prio): decoding of the shares plus prepare_init; prep states and prep shares
      are represented by opaque byte strings.  Arguments: buckets, verify key, aggregator id, nonce,
      public share, input share. *)
  p3_prep_init : nat -> bytes -> nat -> bytes -> bytes -> bytes -> option (bytes * bytes);
  (** Prio3PrepareShare::get_decoded_with_param(&prep_state, bytes) *)
  p3_decode_share : bytes -> bytes -> option bytes;
  (** prepare_shares_to_prepare_message([share of 0, share of 1]) *)
  p3_msg : nat -> bytes -> bytes -> option bytes;
  (** prepare_next(prep_state, msg) *)
  p3_next : nat -> bytes -> bytes -> option p3_transition;
}.

(** What the types of the external functions guarantee: fixed output lengths, outputs are bytes. *)
Definition env_ok (E : env) : Prop :=
  (forall b, length b = 16 -> length (aes0 E b) = 16) /\
  (forall b, length (blake3 E b) = 32) /\
  (forall s d u n, length (xof_bytes E s d u n) = n) /\
  (forall s d u n, length (xof_field E s d u n) = n) /\
  (forall b, Forall (fun x => (x < 256)%N) (aes0 E b)) /\
  (forall b, Forall (fun x => (x < 256)%N) (blake3 E b)).
