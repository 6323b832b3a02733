(** Specification for C65: what the tests of the repository should compute. *)
From Verif Require Import Base Field Util Env Vidpf SpecVidpf SpecTree Collect SpecCollect SpecWhh RepoTests.

(** the bits of a string, byte by byte, least significant bit first *)
Definition bits_of (s : bytes) : list bool :=
  flat_map (fun c => map (fun i => N.testbit c (N.of_nat i)) (seq 0 8)) s.

(** the voters whose string starts with the bits p; their number; the sum of their weights in bucket j *)
Definition voters_at (vs : list voter) (p : list bool) : list voter :=
  filter (fun v => is_prefix p (bits_of (v_str v))) vs.
Definition voters_num (vs : list voter) (p : list bool) : Z := Z.of_nat (length (voters_at vs p)).
Definition voters_sum (vs : list voter) (p : list bool) (j : nat) : fld :=
  fsum (map (fun v => nth j (v_beta v) (of_Z 0)) (voters_at vs p)).
Definition voters_result (vs : list voter) (len : nat) (p : list bool) : result :=
  {| res_path := p; res_value := map (voters_sum vs p) (seq 0 len) ++ [of_Z (voters_num vs p)] |}.
Definition enough (thr : Z) (vs : list voter) (p : list bool) : bool := (thr <=? voters_num vs p)%Z.

(** a voter with a string of the given number of bytes and one weight per bucket *)
Definition good_voter (len chars : nat) (v : voter) : Prop :=
  length (v_seed0 v) = 16 /\ length (v_seed1 v) = 16 /\ length (v_str v) = chars /\ length (v_beta v) = len.

(** the value of an attribute in the test of eval_tree: weights and counter for the client's own string *)
Definition tree_value (s : bytes) (beta : list fld) (a : bytes) : list fld :=
  if path_eqb (bits_of a) (bits_of s) then beta ++ [of_Z 1] else repeat (of_Z 0) (length beta + 1).

(** the joint randomness and the query randomness of one FLP run; the FLP can prove the statement with
    it and is complete for it *)
Definition test_joint (E : env) (len : nat) (r : flp_rand) : list fld :=
  xof_field E (xof_bytes E (f_seed0 r) (repeat 0%N 16) (0%N :: f_nonce r) 16)
              (xof_bytes E (f_seed1 r) (repeat 0%N 16) (1%N :: f_nonce r) 16) [] (flp_joint_rand_len E len).
Definition flp_works (E : env) (vk : bytes) (len m : nat) (r : flp_rand) : Prop :=
  flp_prove E len (one_hot len m) (f_prove_rand r) (test_joint E len r) <> None /\
  flp_complete E len (one_hot len m) (f_prove_rand r) (test_joint E len r)
               (xof_field E vk (f_nonce r) [] (flp_query_rand_len E len)).
(** the path and the values of a result as integers *)
Definition shown (r : result) : list bool * list Z := (res_path r, map fval (res_value r)).
