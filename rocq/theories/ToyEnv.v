(** A second concrete environment, for longer examples: like RefEnv, but with cheap mixing functions in
    place of AES and BLAKE3, so that whole runs can be computed quickly. *)
From Verif Require Import Base BaseFacts Field Util Env RefEnv SpecVidpf SpecWhh.

Definition mix (b : bytes) : N := fold_left (fun h x => (N.land (h * 5 + x + 7) 65535)%N) b 1%N.
Definition toy_bytes (n : nat) (b : bytes) : bytes :=
  let h := mix b in map (fun i => (N.land (N.shiftr (h * (N.of_nat i * 2 + 3)) 4 + N.of_nat i) 255)%N) (seq 0 n).
Definition toy_xof (seed dst data : bytes) (n : nat) : bytes := toy_bytes n (seed ++ dst ++ data).
Definition toy_env (debug x86_64 : bool) : env :=
  {| dbg := debug; x86 := x86_64; aes0 := toy_bytes 16; blake3 := toy_bytes 32;
     xof_bytes := toy_xof;
     xof_field := fun s d u n => map of_N (toy_xof s d u n);
     clog2f := Nat.log2_up;
     flp_joint_rand_len := fun _ => 1; flp_query_rand_len := fun _ => 1; flp_prove_rand_len := fun _ => 1;
     flp_prove := ref_prove; flp_query := ref_query; flp_decide := ref_decide;
     p3_prep_init := ref_p3_init; p3_decode_share := ref_p3_dec; p3_msg := ref_p3_msg; p3_next := ref_p3_next |}.

Lemma toy_bytes_ok n b : length (toy_bytes n b) = n /\ Forall (fun x => (x < 256)%N) (toy_bytes n b).
Proof.
  unfold toy_bytes. split; [rewrite map_length, seq_length; reflexivity|]. apply Forall_forall. intros x Hx. apply in_map_iff in Hx.
  destruct Hx as (i & <- & _). change 255%N with (N.ones 8). rewrite N.land_ones. apply N.mod_lt. discriminate.
Qed.
Lemma toy_env_ok debug x86_64 : env_ok (toy_env debug x86_64).
Proof.
  unfold env_ok, toy_env; cbn [aes0 blake3 xof_bytes xof_field]. repeat split; intros; try apply toy_bytes_ok.
  unfold toy_xof. rewrite map_length. apply toy_bytes_ok.
Qed.
