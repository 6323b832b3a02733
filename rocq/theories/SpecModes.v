(** Specification vocabulary for complete runs of attribute-based and plain metrics. *)
From Verif Require Import Base Field Util Env Prg Vidpf SpecVidpf SpecTree Merkle Collect Server Driver Modes SpecCollect SpecMetrics SpecLevel SpecWhh.

(** a followed by the common part of b added onto it *)
Definition sum_onto (a b : list fld) : list fld := map (fun i => fadd (nth i a (of_Z 0)) (nth i b (of_Z 0))) (seq 0 (length a)).

(** *** attribute-based metrics *)
(** what one aggregator computes from one share: the values at the attributes, the verifier share of the
    weight check, and the hash of the evaluation transcript *)
Definition tree_share (E : env) (first : bool) (len : nat) (vk : bytes) (attrs : list (list bool)) (r : report_share)
  : option (list (list fld) * list fld * bytes) :=
  match r with
  | RSMastic nonce k proof jr =>
      match eval_tree E k attrs len [] with
      | Ret (vals, beta, tr) =>
          match flp_query E len beta proof (query_rand E len vk nonce) (joint_rand E first len nonce k jr) 2 with
          | Some ver => Some (vals, ver, blake3 E tr)
          | None => None
          end
      | Panic _ => None
      end
  | RSPrio3 _ _ _ => None
  end.
(** one report: the values of both aggregators at the attributes, whether the weight check passes, and
    whether the transcripts have the same hash *)
Record row := { w_vals0 : list (list fld); w_vals1 : list (list fld); w_fit : bool; w_agree : bool }.
Definition row_of (E : env) (len : nat) (vk : bytes) (attrs : list (list bool)) (r : report_share * report_share) (w : row) : Prop :=
  exists ver0 h0 ver1 h1,
    tree_share E true len vk attrs (fst r) = Some (w_vals0 w, ver0, h0) /\
    tree_share E false len vk attrs (snd r) = Some (w_vals1 w, ver1, h1) /\
    flp_decide E len (sum_onto ver0 ver1) = Some (w_fit w) /\ (w_agree w = true <-> h0 = h1).
(** a debug build drops the reports that fail a check, a release build keeps everything (C33) *)
Definition kept (debug : bool) (w : row) : bool := negb debug || (w_fit w && w_agree w).
(** component j of attribute number a, summed over reports and aggregators *)
Definition cell (ws : list row) (a j : nat) : fld := fsum (map (fun w => fadd (comp a j (w_vals0 w)) (comp a j (w_vals1 w))) ws).
Definition row_table (debug : bool) (len : nat) (attrs : list (list bool)) (ws : list row) : list (list bool * list fld) :=
  combine attrs (map (fun a => map (cell (filter (kept debug) ws) a) (seq 0 len)) (seq 0 (length attrs))).
(** the ends of the batches of size b of n reports *)
Definition batch_ends (n b : nat) : list nat := map (fun k => Nat.min n ((k + 1) * b)) (seq 0 ((n + b - 1) / b)).
(** an aggregator that holds the given reports and has validated none *)
Definition untouched (first : bool) (len : nat) (vk : bytes) (rs : list report_share) (s : server) : Prop :=
  s_poison s = false /\ (c_sid (s_coll s) =? 0)%Z = first /\ c_len (s_coll s) = len /\ c_vk (s_coll s) = vk /\
  map snd (c_reports (s_coll s)) = rs /\ c_abm (s_coll s) = [].

(** the whole program: string and bucket of the clients whose report is in a table *)
Definition in_table (debug : bool) (clients : list client) (chs : list choice) : list (list bool * nat) :=
  flat_map (fun ch => if negb debug || counts ch then match nth_error clients (ch_idx ch) with Some cl => [(cl_alpha cl, cl_bucket cl)] | None => [] end else []) chs.
Definition tally_table (len : nat) (attrs : list (list bool)) (bs : list (list bool * nat)) : list (list bool * list fld) :=
  map (fun a => (a, map (fun j => of_Z (tally_bucket bs a j)) (seq 0 len))) attrs.
(** the verifier shares of the FLP all have the same length *)
Definition fixed_verifier_len (E : env) (len : nat) : Prop :=
  exists n, forall b p q j v, flp_query E len b p q j 2 = Some v -> length v = n.

(** *** plain metrics *)
(** consecutive pieces of length b; the last one may be shorter *)
Definition pieces {A} (b : nat) (l : list A) : list (list A) := map (fun k => firstn b (skipn (k * b) l)) (seq 0 ((length l + b - 1) / b)).
(** the bucket of the client of each upload; None if the upload is spoilt *)
Definition pm_votes (clients : list pm_client) (chs : list choice) : list (option nat) :=
  map (fun ch => if ch_malicious ch then None else option_map pc_bucket (nth_error clients (ch_idx ch))) chs.
(** the histogram of a list of votes and the number of rejected ones *)
Definition vote_histogram (len : nat) (vs : list (option nat)) : list Z * Z :=
  (map (fun j => Z.of_nat (length (filter (fun v => match v with Some m => m =? j | None => false end) vs))) (seq 0 len),
   Z.of_nat (length (filter (fun v => match v with None => true | Some _ => false end) vs))).
(** what a histogram holds when the reports contribute vectors instead of single votes *)
Definition sum_histogram (len : nat) (rs : list (option (list fld))) : list Z * Z :=
  (map (fun j => fval (fsum (map (fun beta => nth j beta (of_Z 0)) (somes rs)))) (seq 0 len),
   Z.of_nat (length (filter (fun v => match v with None => true | Some _ => false end) rs))).
(** the first byte of an input share with its lowest bit flipped *)
Definition spoil (l : bytes) : bytes := match l with b :: t => N.lxor b 1 :: t | [] => [] end.
(** Prio3 accepts what an honest client uploads and rejects the spoilt uploads of this run: the first
    aggregator gets the first input share, the second one the second, spoilt or not *)
Definition good_pm_choice (E : env) (shard : sharding) (len : nat) (vk : bytes) (clients : list pm_client) (ch : choice) : Prop :=
  exists cl pub i0 i1, nth_error clients (ch_idx ch) = Some cl /\ pc_bucket cl < len /\
    shard len (pc_bucket cl) (pc_nonce cl) (pc_rand cl) = Some (pub, (i0, i1)) /\ (ch_malicious ch = true -> i1 <> []) /\
    p3_run E len vk (RSPrio3 (pc_nonce cl) pub i0) (RSPrio3 (pc_nonce cl) pub (if ch_malicious ch then spoil i1 else i1))
      (if ch_malicious ch then None else Some (one_hot len (pc_bucket cl))).
