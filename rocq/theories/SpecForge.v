(** Specification vocabulary for forged reports: reports with changed correction words that pass every
    check an honest report passes. *)
From Verif Require Import Base Field Util Env Prg Vidpf SpecVidpf SpecTree Merkle Collect Server Driver SpecCollect SpecServer SpecCheck SpecLevel SpecWhh SpecSearch.

(** the same report with another key *)
Definition with_key (k : vidpf_key) (r : report_share) : report_share :=
  match r with RSMastic n _ p j => RSMastic n k p j | x => x end.

(** the value of a pair of keys at a path: the two word shares added *)
Definition value_at (E : env) (len : nat) (k0 k1 : vidpf_key) (p : list bool) : list fld :=
  sum_vec (len + 1) (word_at E k0 len p) (word_at E k1 len p).

(** Everything one aggregator computes from its share for checking the report is the same with key k' as
    with key k: the share sent in the FLP check, the verification strings of all levels but the last (any
    frontier) and the proofs at the last level (any frontier). *)
Definition same_checks (E : env) (first : bool) (len bits : nat) (k k' : vidpf_key) : Prop :=
  (forall vk nonce proof jr, verifier_share E first len vk (RSMastic nonce k' proof jr) = verifier_share E first len vk (RSMastic nonce k proof jr)) /\
  (forall level paths, S level < bits -> (forall p, In p paths -> length p = level) ->
     verification_string E first len level paths k' = verification_string E first len level paths k) /\
  (forall paths, (forall p, In p paths -> S (length p) = bits) -> proofs_xor E len (children paths) k' = proofs_xor E len (children paths) k).

(** reports of the clients in [L] as held by the two aggregators *)
Definition pairs_of (L : list entry) : list pair := map (fun e => (e_ok e, (e_r0 e, e_r1 e))) L.

(** a key that can be evaluated to the given depth *)
Definition usable (bits : nat) (k : vidpf_key) : Prop := key_typed k /\ bits <= length (cor_words k) /\ bits <= length (cs k).
