(** Specification vocabulary for complete runs of weighted heavy hitters. *)
From Verif Require Import Base Field Util Env Prg Vidpf SpecTree Merkle Collect Server Driver SpecVidpf SpecCollect SpecLevel.

(** one report: the two shares, whether it is accepted, and the string and weights it stands for *)
Record entry := { e_ok : bool; e_r0 : report_share; e_r1 : report_share; e_alpha : list bool; e_beta : list fld }.

(** what the first and the second aggregator hold *)
Definition held0 (L : list entry) : list (bool * report_share) := map (fun e => (e_ok e, e_r0 e)) L.
Definition held1 (L : list entry) : list (bool * report_share) := map (fun e => (e_ok e, e_r1 e)) L.

(** the accepted reports whose string starts with p; how many there are; their total weight *)
Definition supporters (L : list entry) (p : list bool) : list entry := filter (fun e => e_ok e && is_prefix p (e_alpha e)) L.
Definition count (L : list entry) (p : list bool) : Z := Z.of_nat (length (supporters L p)).
Definition weight (L : list entry) (p : list bool) (j : nat) : fld := fsum (map (fun e => nth j (e_beta e) (of_Z 0)) (supporters L p)).
Definition exact_result (L : list entry) (len : nat) (p : list bool) : result :=
  {| res_path := p; res_value := map (weight L p) (seq 0 len) ++ [of_Z (count L p)] |}.
Definition heavy (thr : Z) (L : list entry) (p : list bool) : bool := (thr <=? count L p)%Z.

(** all strings of n bits, in lexicographic order *)
Fixpoint all_paths (n : nat) : list (list bool) :=
  match n with O => [[]] | S n' => map (cons false) (all_paths n') ++ map (cons true) (all_paths n') end.

(** a share whose key can be evaluated to the given depth: 16-byte seeds and hashes (which the Rust types
    guarantee) and enough correction words *)
Definition well_formed (bits : nat) (r : report_share) : Prop :=
  exists nonce k proof jr, r = RSMastic nonce k proof jr /\ key_typed k /\ bits <= length (cor_words k) /\ bits <= length (cs k).

(** keys produced by the client's key generation *)
Definition honest_keys (E : env) (k0 k1 : vidpf_key) (alpha : list bool) (beta : list fld) : Prop :=
  exists seed0 seed1, length seed0 = 16 /\ length seed1 = 16 /\ gen E seed0 seed1 alpha beta = Ret (k0, k1).

(** every report is well formed and the accepted ones are honest *)
Definition good_entry (E : env) (len bits : nat) (e : entry) : Prop :=
  well_formed bits (e_r0 e) /\ well_formed bits (e_r1 e) /\
  (e_ok e = true -> honest_keys E (key_of (e_r0 e)) (key_of (e_r1 e)) (e_alpha e) (e_beta e) /\ length (e_alpha e) = bits /\ length (e_beta e) = len).

(** *** the FLP check of one report *)
(** the share of the weights an aggregator hands to the FLP: the sum of the two words below the root *)
Definition beta_share (E : env) (len : nat) (k : vidpf_key) : list fld := sum_vec len (word_at E k len [false]) (word_at E k len [true]).
(** the joint randomness as derived by one aggregator: its own part is recomputed from its root seed and
    the nonce, the part of the other one is taken from the report *)
Definition jr_part (E : env) (first : bool) (k : vidpf_key) (nonce : bytes) : bytes :=
  xof_bytes E (root_seed k) (repeat 0%N 16) ((if first then 0%N else 1%N) :: nonce) 16.
Definition joint_rand (E : env) (first : bool) (len : nat) (nonce : bytes) (k : vidpf_key) (jr : bytes * bytes) : list fld :=
  if first then xof_field E (jr_part E true k nonce) (snd jr) [] (flp_joint_rand_len E len)
  else xof_field E (fst jr) (jr_part E false k nonce) [] (flp_joint_rand_len E len).
Definition query_rand (E : env) (len : nat) (vk nonce : bytes) : list fld := xof_field E vk nonce [] (flp_query_rand_len E len).
Definition verifier_share (E : env) (first : bool) (len : nat) (vk : bytes) (r : report_share) : option (list fld) :=
  match r with
  | RSMastic nonce k proof jr => flp_query E len (beta_share E len k) proof (query_rand E len vk nonce) (joint_rand E first len nonce k jr) 2
  | RSPrio3 _ _ _ => None
  end.
Definition add_shares (v0 v1 : list fld) : list fld := map (fun xy => fadd (fst xy) (snd xy)) (combine v0 v1).
(** the outcome of the FLP check of one report *)
Definition report_verdict (E : env) (len : nat) (vk : bytes) (r0 r1 : report_share) (b : bool) : Prop :=
  exists v0 v1, verifier_share E true len vk r0 = Some v0 /\ verifier_share E false len vk r1 = Some v1 /\
  flp_decide E len (add_shares v0 v1) = Some b.

(** completeness of the FLP for one statement and one choice of randomness: the proof the prover makes is
    accepted, however statement and proof are shared *)
Definition flp_complete (E : env) (len : nat) (beta prove_rand joint query : list fld) : Prop :=
  forall proof b0 b1 p0 p1, flp_prove E len beta prove_rand joint = Some proof -> shares_of b0 b1 beta -> shares_of p0 p1 proof ->
  exists v0 v1, flp_query E len b0 p0 query joint 2 = Some v0 /\ flp_query E len b1 p1 query joint 2 = Some v1 /\
  flp_decide E len (add_shares v0 v1) = Some true.

(** *** what a run of the driver should print *)
(** The simulated misbehaving clients with [ch_coin] set upload their report unchanged (C32); the others
    spoil the proof.  The reports of the remaining clients count. *)
Definition counts (ch : choice) : bool := negb (ch_malicious ch && negb (ch_coin ch)).
(** the string and the bucket of every client that counts *)
Definition ballots (clients : list client) (chs : list choice) : list (list bool * nat) :=
  flat_map (fun ch => if counts ch then match nth_error clients (ch_idx ch) with Some cl => [(cl_alpha cl, cl_bucket cl)] | None => [] end else []) chs.
(** how many of them hold a string that starts with p, and how many of these are in bucket j *)
Definition tally (bs : list (list bool * nat)) (p : list bool) : Z := Z.of_nat (length (filter (fun b => is_prefix p (fst b)) bs)).
Definition tally_bucket (bs : list (list bool * nat)) (p : list bool) (j : nat) : Z :=
  Z.of_nat (length (filter (fun b => is_prefix p (fst b) && (snd b =? j)) bs)).
Definition tally_result (bs : list (list bool * nat)) (len : nat) (p : list bool) : result :=
  {| res_path := p; res_value := map (fun j => of_Z (tally_bucket bs p j)) (seq 0 len) ++ [of_Z (tally bs p)] |}.
Definition popular (thr : Z) (bs : list (list bool * nat)) (p : list bool) : bool := (thr <=? tally bs p)%Z.

(** the joint randomness the prover uses *)
Definition prover_joint_rand (E : env) (len : nat) (cl : client) : list fld :=
  xof_field E (xof_bytes E (cl_seed0 cl) (repeat 0%N 16) (0%N :: cl_nonce cl) 16) (xof_bytes E (cl_seed1 cl) (repeat 0%N 16) (1%N :: cl_nonce cl) 16) [] (flp_joint_rand_len E len).
(** the client draws 16-byte seeds, holds a string of the right length, and the FLP is complete for its
    statement and the randomness of this run *)
Definition good_client (E : env) (len bits : nat) (vk : bytes) (cl : client) : Prop :=
  length (cl_seed0 cl) = 16 /\ length (cl_seed1 cl) = 16 /\ length (cl_alpha cl) = bits /\
  flp_complete E len (one_hot len (cl_bucket cl)) (cl_prove_rand cl) (prover_joint_rand E len cl) (query_rand E len vk (cl_nonce cl)).
(** a choice points to a client, and a spoilt proof is rejected by the FLP *)
Definition good_choice (E : env) (len : nat) (vk : bytes) (reports : list plaintext_report) (ch : choice) : Prop :=
  ch_idx ch < length reports /\
  (counts ch = false -> exists r0 r1, make_upload reports ch = Ret (r0, r1) /\ report_verdict E len vk r0 r1 false).
(** an aggregator process, in whatever state an earlier run left it *)
Definition running (id : Z) (bits : nat) (s : server) : Prop := s_poison s = false /\ s_id s = id /\ s_bits s = Some bits.
(** an aggregator that holds the given reports and has done nothing else *)
Definition uploaded (first : bool) (len bits : nat) (vk : bytes) (rs : list report_share) (s : server) : Prop :=
  s_poison s = false /\ (c_sid (s_coll s) =? 0)%Z = first /\ c_len (s_coll s) = len /\ c_depth (s_coll s) = Some bits /\
  c_vk (s_coll s) = vk /\ c_reports (s_coll s) = map (fun r => (true, r)) rs.
