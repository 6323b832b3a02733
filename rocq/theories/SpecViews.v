(** Specification for C88: the requests an aggregator receives during runs of the two kinds of metrics. *)
From Verif Require Import Base Field Util Env Prg Vidpf Merkle Collect Server Driver Sched System SpecView.

(** attribute-based metrics: what can be written down knowing the attributes and the FLP verdicts [oks] *)
Definition abm_script (b : nat) (attrs : list (list bool)) (oks : list bool) : list request :=
  flat_map (fun r => [QAbmValidate attrs (fst r) (snd r);
                      QAbmResult (filter (fun i => negb (nth i oks true)) (seq (fst r) (snd r - fst r))) (length attrs) (fst r) (snd r)]) (bounds (length oks) b).

(** plain metrics: the preparation share of an aggregator for one report share *)
Definition prep_share (E : env) (len : nat) (vk : bytes) (id : nat) (r : report_share) : option bytes :=
  match r with
  | RSPrio3 nonce pub inp => option_map snd (p3_prep_init E len vk id nonce pub inp)
  | RSMastic _ _ _ _ => None
  end.
(** the requests to one aggregator, given the preparation shares of the other one *)
Definition pm_script (b : nat) (theirs : list bytes) : list request :=
  flat_map (fun r => [QPmValidate (fst r) (snd r); QPmResult (firstn (snd r - fst r) (skipn (fst r) theirs)) (fst r) (snd r)]) (bounds (length theirs) b).
