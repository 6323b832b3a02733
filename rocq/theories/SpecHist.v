(** What is claimed about the proof system of the histogram type (C74, C75). *)
From Verif Require Import Base Field Util Env Vidpf Collect Server Driver Histogram SpecVidpf SpecCollect SpecServer SpecDriver SpecWhh.

(** the vectors with a single 1 *)
Definition unit_vector (len : nat) (x : list fld) : Prop :=
  length x = len /\ exists m, m < len /\ forall i, i < len -> nth i x fzero = if i =? m then fone else fzero.

(** Below c is the chunk length: 2 in the Mastic modes, the square root of len in plain metrics.
    Two aggregators hold shares of the input and of the proof; both query, the sum of the answers decides *)
Definition decides (c len : nat) (x0 x1 p0 p1 jr qr : list fld) (b : bool) : Prop :=
  exists v0 v1, hist_query c len x0 p0 qr jr 2 = Some v0 /\ hist_query c len x1 p1 qr jr 2 = Some v1 /\
  hist_decide c (add_shares v0 v1) = Some b.
(** some sharing of input and proof is accepted *)
Definition accepted (c len : nat) (x proof : list fld) (j0 j1 r : fld) : Prop :=
  exists x0 x1 p0 p1, shares_of x0 x1 x /\ shares_of p0 p1 proof /\ decides c len x0 x1 p0 p1 [j0; j1] [r] true.

(** The two checks on the input, weighted by the joint randomness: every entry is 0 or 1, and the entries
    sum to 1. *)
Definition checks (len : nat) (x : list fld) (j0 j1 : fld) : fld :=
  fadd (fmul j1 (fsum (map (fun i => fmul (fpow j0 (i + 1)) (fmul (nth i x fzero) (fsub (nth i x fzero) fone))) (seq 0 len))))
       (fmul (fmul j1 j1) (fsub (fsum x) fone)).

(** r is a root of unity of the order used for a histogram of this length *)
Definition on_domain (c len : nat) (r : fld) : Prop := fpow r (2 ^ wire_log c len) = fone.

(** The second wire of the gadget: a random value at 1, then every c-th entry of the input, minus one,
    then zeros. *)
Definition second_wire (c len : nat) (prove_rand x : list fld) (w : list fld) : Prop :=
  length w <= 2 ^ wire_log c len /\ poly_eval w fone = nth 1 prove_rand fzero /\
  (forall k, k < ncalls c len -> poly_eval w (fpow (root (wire_log c len)) (k + 1)) = fsub (nth (c * k) x fzero) fone) /\
  (forall k, ncalls c len < k -> k < 2 ^ wire_log c len -> poly_eval w (fpow (root (wire_log c len)) k) = fzero).

(** *** complete runs with this proof system *)
(** the query point of a client's report *)
Definition query_point (E : env) (len : nat) (vk : bytes) (cl : client) : fld := nth 0 (query_rand (with_hist E) len vk (cl_nonce cl)) fzero.
(** the client draws 16-byte seeds, holds a string of the right length, and its query point is usable *)
Definition fair_client (E : env) (len bits : nat) (vk : bytes) (cl : client) : Prop :=
  length (cl_seed0 cl) = 16 /\ length (cl_seed1 cl) = 16 /\ length (cl_alpha cl) = bits /\ ~ on_domain chunk len (query_point E len vk cl).
(** a choice points to a client; if the proof is spoilt, the query point is not a root of the second wire *)
Definition fair_choice (E : env) (len : nat) (vk : bytes) (clients : list client) (ch : choice) : Prop :=
  ch_idx ch < length clients /\
  (counts ch = false -> forall cl w, nth_error clients (ch_idx ch) = Some cl ->
     second_wire chunk len (cl_prove_rand cl) (one_hot len (cl_bucket cl)) w -> poly_eval w (query_point E len vk cl) <> fzero).

(** *** a client that picks its weights after the joint randomness *)
(** The joint randomness is derived from the two root seeds and the nonce.  The client of [cl] runs the key
    generation and the prover with weights x of its choice instead of a unit vector. *)
Definition forged_entry (E : env) (len : nat) (cl : client) (x : list fld) (e : entry) : Prop :=
  exists k0 k1 proof, gen (with_hist E) (cl_seed0 cl) (cl_seed1 cl) (cl_alpha cl) x = Ret (k0, k1) /\
  hist_prove chunk len x (cl_prove_rand cl) (prover_joint_rand (with_hist E) len cl) = Some proof /\
  let proof_0 := map (cl_proof_rand cl) (seq 0 (length proof)) in
  let jr := (jr_part E true k0 (cl_nonce cl), jr_part E false k1 (cl_nonce cl)) in
  e = {| e_ok := true; e_r0 := RSMastic (cl_nonce cl) k0 proof_0 jr; e_r1 := RSMastic (cl_nonce cl) k1 (zip_sub proof proof_0) jr;
         e_alpha := cl_alpha cl; e_beta := x |}.
(** the vector with t in bucket i and zeros elsewhere *)
Definition single (len i : nat) (t : fld) : list fld := map (fun k => if k =? i then t else fzero) (seq 0 len).

(** *** a client that advertises wrong joint randomness parts *)
(** An aggregator derives its own part from its root seed and the nonce and takes the other one from the report
    share; the advertised parts are (q0, q1).  The joint randomness of the first and of the second aggregator: *)
Definition joint_of_first (E : env) (cl : client) (q1 : bytes) : list fld :=
  xof_field E (xof_bytes E (cl_seed0 cl) (repeat 0%N 16) (0%N :: cl_nonce cl) 16) q1 [] 2.
Definition joint_of_second (E : env) (cl : client) (q0 : bytes) : list fld :=
  xof_field E q0 (xof_bytes E (cl_seed1 cl) (repeat 0%N 16) (1%N :: cl_nonce cl) 16) [] 2.
(** the client of [cl] runs the key generation for weights x and uploads proof shares of its choice *)
Definition advertised (E : env) (cl : client) (x : list fld) (q0 q1 : bytes) (e : entry) : Prop :=
  exists k0 k1 p0 p1, gen (with_hist E) (cl_seed0 cl) (cl_seed1 cl) (cl_alpha cl) x = Ret (k0, k1) /\
  e = {| e_ok := true; e_r0 := RSMastic (cl_nonce cl) k0 p0 (q0, q1); e_r1 := RSMastic (cl_nonce cl) k1 p1 (q0, q1);
         e_alpha := cl_alpha cl; e_beta := x |}.
