(** Property C64: PrgSeed::to_rng and PrgStream (src/prg.rs:54-63, 160-200). *)
From Verif Require Import Base Util PrgStream SpecPrgStream PrgStreamFacts PrgStreamExamples.

(** C64: for every seed and every sequence of draws of any sizes and kinds, the generator hands out
    the consecutive bytes of AES-128 in counter mode under the seed, xored into what the buffers
    contained; in debug builds this needs every buffer to be zero. *)
Theorem C64_draws : forall aes key debug ds,
  aes_blocks aes key -> debug = false \/ Forall blank ds ->
  exists s', draws debug aes (to_rng key) ds = Ret (s', results aes key 0 ds).
Proof. exact (fun aes key debug ds A => C64_draws_lemma aes key A debug ds). Qed.
Print Assumptions C64_draws.

(** Any other sequence makes a debug build panic. *)
Theorem C64_debug : forall aes key ds,
  aes_blocks aes key -> ~ Forall blank ds ->
  draws true aes (to_rng key) ds = Panic PDebugAssert.
Proof. exact (fun aes key ds A => C64_debug_lemma aes key A ds). Qed.
Print Assumptions C64_debug.

(** The contract of RngCore::fill_bytes (the buffer is overwritten, so its old contents do not
    matter) fails for all pairs of different buffers, after any draws: a release build returns
    different bytes. *)
Theorem C64_refuted : forall aes key ds a b,
  aes_blocks aes key -> length a = length b -> a <> b ->
  exists s1 s2 gs x y,
    draws false aes (to_rng key) (ds ++ [Fill a]) = Ret (s1, gs ++ [Bytes x]) /\
    draws false aes (to_rng key) (ds ++ [Fill b]) = Ret (s2, gs ++ [Bytes y]) /\ x <> y.
Proof. exact (fun aes key ds a b A => C64_refuted_lemma aes key A ds a b). Qed.
Print Assumptions C64_refuted.

(** the zero seed: draws of 3 bytes, a u64, 20 bytes and a u32, in both build profiles *)
Example C64_example : aes_blocks aes_ref k0 /\ Forall blank seq1 /\ ex_draws = true.
Proof. exact C64_example_proof. Qed.

(** one buffer filled twice: debug builds panic, release builds return the xor of two blocks *)
Example C64_refuted_example : ex_twice = true.
Proof. exact C64_twice_proof. Qed.
