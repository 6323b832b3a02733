(** Specification for C87: an aggregator that lies about its shares of the verifiers. *)
From Verif Require Import Base Field Util Env Prg Vidpf Merkle Collect Server Driver SpecVidpf SpecCollect SpecLevel SpecWhh Sched System SpecTamper.

(** the share of the verifier of the report at position i becomes [lie i] of it *)
Definition lie_verifiers (lie : nat -> list fld -> list fld) (q : request) (r : response) : response :=
  match q, r with
  | QRunFlpQueries start _, AFields v => AFields (map (fun ix => lie (start + fst ix) (snd ix)) (numbered v))
  | _, _ => r
  end.
(** the outcome of the FLP check of one report if the first aggregator, if [who], or else the second one, lies so *)
Definition lied_verdict (E : env) (len : nat) (vk : bytes) (who : bool) (lie : list fld -> list fld) (r0 r1 : report_share) (b : bool) : Prop :=
  exists v0 v1, verifier_share E true len vk r0 = Some v0 /\ verifier_share E false len vk r1 = Some v1 /\
  flp_decide E len (add_shares (if who then lie v0 else v0) (if who then v1 else lie v1)) = Some b.
(** the string and the bucket of the uploads at the positions in [ok] *)
Definition ballots_at (ok : nat -> bool) (clients : list client) (chs : list choice) : list (list bool * nat) :=
  flat_map (fun ic => if ok (fst ic) then match nth_error clients (ch_idx (snd ic)) with Some cl => [(cl_alpha cl, cl_bucket cl)] | None => [] end else []) (numbered chs).
(** lies in the answers to the FLP queries only, of any kind *)
Definition about_queries (alter : request -> response -> response) : Prop :=
  forall q r, match q with QRunFlpQueries _ _ => True | _ => alter q r = r end.
