(** Specification vocabulary for the value check and for environments with other FLPs. *)
From Verif Require Import Base Field Util Env Prg Vidpf Merkle Collect Server Driver.

(** the low 64 bits of a field element *)
Definition low64 (x : fld) : N := Z.to_N (fval x mod 2 ^ 64).
Definition xor_all (l : list N) : N := fold_right N.lxor 0%N l.
(** the components of one check that enter the check string *)
Definition used (level len : nat) (check : list fld) : list fld :=
  if level =? 0 then [nth len check (of_Z 0)] else firstn len check.
(** ... of one client over all prefixes *)
Definition used_all (level len client : nat) (checks : list (list (list fld))) : list fld :=
  concat (map (fun per_client => used level len (nth client per_client [])) checks).
(** the check of this client has len + 1 components at every prefix *)
Definition check_shape (len client : nat) (checks : list (list (list fld))) : Prop :=
  forall per_client, In per_client checks -> exists check, nth_error per_client client = Some check /\ length check = len + 1.

(** the same program with another FLP verifier *)
Definition with_flp (E : env) (q : nat -> list fld -> list fld -> list fld -> list fld -> nat -> option (list fld))
           (d : nat -> list fld -> option bool) : env :=
  {| dbg := dbg E; x86 := x86 E; aes0 := aes0 E; blake3 := blake3 E; xof_bytes := xof_bytes E; xof_field := xof_field E; clog2f := clog2f E;
     flp_joint_rand_len := flp_joint_rand_len E; flp_query_rand_len := flp_query_rand_len E; flp_prove_rand_len := flp_prove_rand_len E;
     flp_prove := flp_prove E; flp_query := q; flp_decide := d;
     p3_prep_init := p3_prep_init E; p3_decode_share := p3_decode_share E; p3_msg := p3_msg E; p3_next := p3_next E |}.
