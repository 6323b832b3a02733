(** Specification vocabulary for two drivers talking to the same pair of aggregators. *)
From Verif Require Import Base Field Util Env Prg Vidpf Merkle Collect Server.

(** two sequences merged in the order given by the pattern: true takes from the first, false from the second *)
Fixpoint weave {A} (pattern : list bool) (a b : list A) : list A :=
  match pattern with
  | [] => []
  | true :: p => match a with x :: a' => x :: weave p a' b | [] => [] end
  | false :: p => match b with x :: b' => x :: weave p a b' | [] => [] end
  end.
Definition count (x : bool) (p : list bool) : nat := length (filter (Bool.eqb x) p).
(** the pattern takes everything from both *)
Definition merges {A} (p : list bool) (a b : list A) : Prop := count true p = length a /\ count false p = length b.

(** an upload request to aggregator 0 or 1 for a batch of reports, each given by its two shares *)
Definition upload_to (first : bool) (batch : list (report_share * report_share)) : request :=
  QAddReportShares (map (if first then fst else snd) batch).
