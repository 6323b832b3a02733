(** Concrete cases for C64, with the AES-128 of RefCrypto.v. *)
From Verif Require Import Base BaseFacts Util PrgStream SpecPrgStream RefCrypto RefEnv.

Definition aes_ref (key b : bytes) : bytes := clamp 16 (aes128 key b).
Definition k0 : bytes := repeat 0%N 16.
(** 3 zero bytes, a u64, 20 zero bytes, a u32: block boundaries are crossed inside draws *)
Definition seq1 : list draw := [Fill (repeat 0%N 3); U64; TryFill (repeat 0%N 20); U32].
(** the same buffer filled twice *)
Definition seq2 (d : bytes) : list draw := [Fill (repeat 0%N 16); Fill d].

(** the first three blocks of AES in counter mode under the zero key, in full *)
Definition b0 : bytes := aes128 k0 (repeat 0%N 16).
Definition b1 : bytes := aes128 k0 (1%N :: repeat 0%N 15).
Definition b2 : bytes := aes128 k0 (2%N :: repeat 0%N 15).

Definition bytes_eqb (x y : bytes) : bool :=
  (length x =? length y) && forallb (fun p => (fst p =? snd p)%N) (combine x y).
Definition got_eqb (a b : got) : bool :=
  match a, b with
  | Bytes x, Bytes y => bytes_eqb x y
  | Number x, Number y => (x =? y)%N
  | _, _ => false
  end.
Definition gots_eqb (a b : list got) : bool :=
  (length a =? length b) && forallb (fun p => got_eqb (fst p) (snd p)) (combine a b).

Definition ex_draws : bool :=
  forallb (fun debug =>
    match draws debug aes_ref (to_rng k0) seq1 with
    | Ret (_, gs) =>
        gots_eqb gs
          [Bytes [0x66; 0xe9; 0x4b]%N; Number 0xfa4c883b2c8aefd4%N;
           Bytes (skipn 11 b0 ++ firstn 15 b1); Number (le_num (skipn 15 b1 ++ firstn 3 b2))] &&
        negb (bytes_eqb b0 b1) && negb (bytes_eqb b1 b2)
    | Panic _ => false
    end) [false; true].

Definition ex_twice : bool :=
  match draws true aes_ref (to_rng k0) (seq2 b0) with
  | Panic PDebugAssert => true
  | _ => false
  end &&
  match draws false aes_ref (to_rng k0) (seq2 b0), draws false aes_ref (to_rng k0) (seq2 (repeat 0%N 16)) with
  | Ret (_, [Bytes x; Bytes y]), Ret (_, [Bytes x'; Bytes y']) =>
      bytes_eqb x b0 && bytes_eqb x' b0 && bytes_eqb y' b1 && bytes_eqb y (xor_vec b0 b1) &&
      negb (bytes_eqb y y')
  | _, _ => false
  end.

Lemma C64_example_proof : aes_blocks aes_ref k0 /\ Forall blank seq1 /\ ex_draws = true.
Proof.
  split; [|split].
  - intros b _. unfold aes_ref, clamp. destruct (length (aes128 k0 b) =? 16) eqn:E.
    + apply Nat.eqb_eq in E. cbn [andb]. destruct (forallb _ _); [exact E|reflexivity].
    + reflexivity.
  - repeat constructor.
  - vm_cast_no_check (eq_refl true).
Qed.
Lemma C64_twice_proof : ex_twice = true.
Proof. vm_cast_no_check (eq_refl true). Qed.
