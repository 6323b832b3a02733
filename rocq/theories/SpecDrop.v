(** Specification for C85: an aggregator that spoils what it sends for the validation of chosen reports. *)
From Verif Require Import Base Field Util Env Prg Vidpf Merkle Collect Server Driver Modes SpecVidpf SpecLevel SpecWhh SpecMetrics SpecModes Sched System SpecTamper.

(** Attribute-based metrics: in its answer the evaluation proofs of the reports at the positions in D are replaced. *)
Definition spoil_proofs (spoil : bytes -> bytes) (D : nat -> bool) (q : request) (r : response) : response :=
  match q, r with
  | QAbmValidate _ start _, AAbm l =>
      AAbm (map (fun ix => (fst (snd ix), if D (start + fst ix) then spoil (snd (snd ix)) else snd (snd ix))) (numbered l))
  | _, _ => r
  end.
(** the reports that are in the table then: in a debug build those that pass and are not in D, otherwise all *)
Definition in_table_without (debug : bool) (D : nat -> bool) (clients : list client) (chs : list choice) : list (list bool * nat) :=
  flat_map (fun ich => if negb debug || counts (snd ich) && negb (D (fst ich))
                       then match nth_error clients (ch_idx (snd ich)) with Some cl => [(cl_alpha cl, cl_bucket cl)] | None => [] end else []) (numbered chs).
(** lies about the validation only *)
Definition about_validation (alter : request -> response -> response) : Prop :=
  forall q r, (forall attrs start stop, q <> QAbmValidate attrs start stop) -> alter q r = r.
