(** Specification vocabulary for one level of the tree: what one report contributes at a level depends
    on its own key only. *)
From Verif Require Import Base Field Util Env Prg Vidpf SpecTree Merkle Collect Server Driver SpecVidpf SpecCollect SpecCheck.

(** the key of a report (an arbitrary key for a report of another kind) *)
Definition no_key : vidpf_key := {| key_idx := false; root_seed := []; cor_words := []; cs := [] |}.
Definition key_of (r : report_share) : vidpf_key := match r with RSMastic _ k _ _ => k | RSPrio3 _ _ _ => no_key end.

(** word share and evaluation proof of a key at a path; the root has the word [0] *)
Definition word_at (E : env) (k : vidpf_key) (len : nat) (p : list bool) : list fld :=
  match share_at E k len p with Ret (w, _) => w | Panic _ => [of_Z 0] end.
Definition proof_at (E : env) (k : vidpf_key) (len : nat) (p : list bool) : bytes :=
  match share_at E k len p with Ret (_, pf) => pf | Panic _ => [] end.

(** the two children of every path *)
Definition children (paths : list (list bool)) : list (list bool) := concat (map (fun p => [p ++ [false]; p ++ [true]]) paths).

(** the value check at one prefix: y - y0 - y1 for the first aggregator and its negation for the other,
    with 1 in place of y at the root *)
Definition check_at (first : bool) (len level : nat) (y y0 y1 : list fld) : list fld :=
  let parent := if level =? 0 then repeat (of_Z 1) (len + 1) else y in
  map (fun j => if first then fsub (fsub (nth j parent (of_Z 0)) (nth j y0 (of_Z 0))) (nth j y1 (of_Z 0))
                else if level =? 0 then fadd (nth j y0 (of_Z 0)) (nth j y1 (of_Z 0))
                else fsub (fadd (nth j y0 (of_Z 0)) (nth j y1 (of_Z 0))) (nth j parent (of_Z 0))) (seq 0 (len + 1)).

(** the check string and the verification string of a key at a level with the given frontier *)
Definition check_string_of (E : env) (first : bool) (len level : nat) (paths : list (list bool)) (k : vidpf_key) : bytes :=
  le_bytes 8 (xor_all (map low64 (concat (map (fun p =>
    used level len (check_at first len level (word_at E k len p) (word_at E k len (p ++ [false])) (word_at E k len (p ++ [true])))) paths)))).
Definition proofs_xor (E : env) (len : nat) (paths : list (list bool)) (k : vidpf_key) : bytes :=
  fold_left (fun acc p => xor_in_place acc (proof_at E k len p)) paths (repeat 0%N 16).
Definition verification_string (E : env) (first : bool) (len level : nat) (paths : list (list bool)) (k : vidpf_key) : bytes :=
  xor_vec (proofs_xor E len (children paths) k) (firstn 16 (blake3 E (check_string_of E first len level paths k))).
