(** Specification vocabulary for the search for inconsistent reports within one level. *)
From Verif Require Import Base Field Util Env Prg Vidpf SpecTree Merkle Collect Server Driver SpecCollect SpecServer SpecLevel SpecWhh.

(** the reports held by the two aggregators: flag, share of the first, share of the second *)
Definition pair : Type := bool * (report_share * report_share).
Definition share_of (first : bool) (x : pair) : report_share := if first then fst (snd x) else snd (snd x).
Definition held (first : bool) (R : list pair) : list (bool * report_share) := map (fun x => (fst x, share_of first x)) R.
Definition remaining (R : list pair) : list pair := filter fst R.

(** an aggregator holding these reports whose frontier is [paths], every node with the evaluations of all
    reports *)
Definition at_frontier (E : env) (first : bool) (len bits : nat) (paths : list (list bool)) (reps : list (bool * report_share)) (s : server) : Prop :=
  s_poison s = false /\ (c_sid (s_coll s) =? 0)%Z = first /\ c_len (s_coll s) = len /\ c_depth (s_coll s) = Some bits /\ c_reports (s_coll s) = reps /\
  map tn_path (c_frontier (s_coll s)) = paths /\ (forall node, In node (c_frontier (s_coll s)) -> holds_evaluations E len reps (length reps) node).

(** the verification string of a report as computed by the two aggregators, and whether they agree *)
Definition vstring (E : env) (first : bool) (len level : nat) (paths : list (list bool)) (x : pair) : bytes :=
  verification_string E first len level paths (key_of (share_of first x)).
Definition consistent (E : env) (len level : nat) (paths : list (list bool)) (x : pair) : bool :=
  bytes_eqb (vstring E true len level paths x) (vstring E false len level paths x).

(** the j-th aligned block of 2^k elements *)
Definition block {A} (k j : nat) (l : list A) : list A := firstn (2 ^ k) (skipn (j * 2 ^ k) l).
(** no collision of Merkle roots between the corresponding blocks of two lists *)
Definition no_collision (E : env) (h0 h1 : list bytes) : Prop :=
  forall k j, k <= Nat.log2_up (length h0) -> j * 2 ^ k < length h0 ->
  merkle_root E (block k j h0) = merkle_root E (block k j h1) -> block k j h0 = block k j h1.

(** positions, among the remaining reports, of those whose strings differ *)
Definition bad_ranks (E : env) (len level : nat) (paths : list (list bool)) (R : list pair) : list nat :=
  filter (fun i => match nth_error (remaining R) i with Some x => negb (consistent E len level paths x) | None => false end) (seq 0 (length (remaining R))).

(** clear the flags at the given positions of the whole list *)
Definition clear_at (is : list nat) (R : list pair) : list pair :=
  map (fun ix : nat * pair => (fst (snd ix) && negb (existsb (Nat.eqb (fst ix)) is), snd (snd ix))) (combine (seq 0 (length R)) R).

(** the count of a prefix as seen by the driver: the counter components of all remaining reports *)
Definition seen_count (E : env) (len : nat) (R : list pair) (p : list bool) : Z :=
  (fval (fsum (map (fun x => fadd (nth len (word_at E (key_of (share_of true x)) len p) (of_Z 0)) (nth len (word_at E (key_of (share_of false x)) len p) (of_Z 0))) (remaining R))) mod 2 ^ 64)%Z.
Definition survivors (E : env) (len : nat) (thr : Z) (R : list pair) (paths : list (list bool)) : list (list bool) :=
  filter (fun p => (thr <=? seen_count E len R p)%Z) (children paths).

(** the state both aggregators are in after a level with these remaining reports *)
Definition after_level (E : env) (len bits : nat) (thr : Z) (R : list pair) (paths : list (list bool)) (t0 t1 : server) : Prop :=
  at_frontier E true len bits (survivors E len thr R paths) (held true R) t0 /\ at_frontier E false len bits (survivors E len thr R paths) (held false R) t1 /\
  (forall node, In node (c_frontier (s_coll t0)) -> is_sum_of_accepted E len (held true R) (tn_path node) (tn_value node)) /\
  (forall node, In node (c_frontier (s_coll t1)) -> is_sum_of_accepted E len (held false R) (tn_path node) (tn_value node)).

(** the beginning of a level: both aggregators hold the same reports with the same flags and the same
    frontier [paths], whose paths all have length [level]; all keys can be evaluated to depth [bits] *)
Definition level_start (E : env) (len bits level : nat) (paths : list (list bool)) (R : list pair) (s0 s1 : server) : Prop :=
  at_frontier E true len bits paths (held true R) s0 /\ at_frontier E false len bits paths (held false R) s1 /\
  Forall (fun x => well_formed bits (share_of true x) /\ well_formed bits (share_of false x)) R /\
  paths <> [] /\ (forall p, In p paths -> length p = level) /\ level < bits.
(** the leaf count of the Merkle tree of the remaining reports is computed exactly (see C44) and no two
    different blocks of verification strings have the same root *)
Definition hashes_fine (E : env) (len level : nat) (paths : list (list bool)) (R : list pair) : Prop :=
  clog2f E (length (remaining R)) = Nat.log2_up (length (remaining R)) /\
  no_collision E (map (vstring E true len level paths) (remaining R)) (map (vstring E false len level paths) (remaining R)).
Definition all_accepted (R : list pair) : Prop := Forall (fun x => fst x = true) R.
