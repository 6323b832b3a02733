(** A concrete environment for examples and counterexamples: real AES-128 and BLAKE3, and small
    stand-ins for the XOF, the FLP and Prio3 (complete and sound, but without any secrecy). *)
From Verif Require Import Base BaseFacts Field Util Env RefCrypto.

(** clamp to a byte string of the given length (a no-op on the outputs of the real primitives) *)
Definition clamp (n : nat) (b : bytes) : bytes :=
  if (length b =? n) && forallb (fun x => x <? 256)%N b then b else repeat 0%N n.
Definition ref_aes (b : bytes) : bytes := clamp 16 (aes128 (repeat 0%N 16) b).
Definition ref_blake3 (b : bytes) : bytes := clamp 32 (blake3_ref b).
Definition ref_xof (seed dst data : bytes) (n : nat) : bytes :=
  let h := ref_blake3 (seed ++ dst ++ data) in map (fun i => nth (i mod 32) h 0%N) (seq 0 n).

(** FLP stand-in: the verifier is the input followed by the proof; the proof is the constant 1;
    decide checks that the input is a one-hot vector and the proof is 1. *)
Definition is_one_hot (v : list fld) : bool :=
  forallb (fun x => (fval x =? 0)%Z || (fval x =? 1)%Z) v &&
  (fold_right (fun x s => (fval x + s)%Z) 0%Z v =? 1)%Z.
Definition ref_prove (len : nat) (input pr jr : list fld) : option (list fld) := Some [fone].
Definition ref_query (len : nat) (input proof qr jr : list fld) (shares : nat) : option (list fld) :=
  if (length input =? len) && (length proof =? 1) then Some (input ++ proof) else None.
Definition ref_decide (len : nat) (v : list fld) : option bool :=
  if length v =? len + 1
  then Some (is_one_hot (firstn len v) && feqb (nth len v fzero) fone) else None.

(** Prio3 stand-in: an input share is one byte per bucket; the sum of the shares must be one-hot. *)
Definition ref_p3_init (len : nat) (vk : bytes) (id : nat) (nonce pub inp : bytes) : option (bytes * bytes) :=
  if length inp =? len then Some (inp, inp) else None.
Definition ref_p3_dec (st share : bytes) : option bytes :=
  if length share =? length st then Some share else None.
Definition ref_p3_fields (b : bytes) : list fld := map of_N b.
Definition ref_p3_msg (len : nat) (a b : bytes) : option bytes :=
  if is_one_hot (vec_add (ref_p3_fields a) (ref_p3_fields b)) then Some [] else None.
Definition ref_p3_next (len : nat) (st msg : bytes) : option p3_transition := Some (P3Finish (ref_p3_fields st)).

Definition ref_env (debug x86_64 : bool) : env :=
  {| dbg := debug; x86 := x86_64; aes0 := ref_aes; blake3 := ref_blake3;
     xof_bytes := ref_xof;
     xof_field := fun s d u n => map of_N (ref_xof s d u n);
     clog2f := Nat.log2_up;
     flp_joint_rand_len := fun _ => 1; flp_query_rand_len := fun _ => 1; flp_prove_rand_len := fun _ => 1;
     flp_prove := ref_prove; flp_query := ref_query; flp_decide := ref_decide;
     p3_prep_init := ref_p3_init; p3_decode_share := ref_p3_dec; p3_msg := ref_p3_msg; p3_next := ref_p3_next |}.

Lemma clamp_ok n b : length (clamp n b) = n /\ Forall (fun x => (x < 256)%N) (clamp n b).
Proof.
  unfold clamp. destruct ((length b =? n) && _) eqn:H.
  - apply andb_true_iff in H. destruct H as [H1 H2]. split; [apply Nat.eqb_eq; exact H1|].
    apply Forall_forall. intros x Hx. rewrite forallb_forall in H2. apply N.ltb_lt, H2, Hx.
  - split; [apply repeat_length|]. apply Forall_forall. intros x Hx. apply repeat_spec in Hx. subst. reflexivity.
Qed.
Lemma ref_env_ok debug x86_64 : env_ok (ref_env debug x86_64).
Proof.
  unfold env_ok, ref_env; cbn [aes0 blake3 xof_bytes xof_field]; unfold ref_aes, ref_blake3. repeat split; intros.
  - apply clamp_ok.
  - apply clamp_ok.
  - unfold ref_xof. rewrite map_length, seq_length. reflexivity.
  - unfold ref_xof. rewrite !map_length, seq_length. reflexivity.
  - apply clamp_ok.
  - apply clamp_ok.
Qed.
