(** Specification vocabulary for plain metrics when the two aggregators need not agree on a report (C80). *)
From Verif Require Import Base Field Util Env Collect Server Driver Modes Histogram Prio3 SpecCollect SpecMetrics SpecWhh SpecModes.

(** what one aggregator makes of the two prepare shares: its output share, or nothing if it rejects the report *)
Definition own_verdict (E : env) (len : nat) (st sh0 sh1 : bytes) (v : option (list fld)) : Prop :=
  match v with
  | None => p3_msg E len sh0 sh1 = None \/ exists m, p3_msg E len sh0 sh1 = Some m /\ p3_next E len st m = None
  | Some o => length o = len /\ exists m, p3_msg E len sh0 sh1 = Some m /\ p3_next E len st m = Some (P3Finish o)
  end.
(** one report, prepared by both aggregators, each with its own verdict *)
Definition verdicts (E : env) (len : nat) (vk : bytes) (r0 r1 : report_share) (v : option (list fld) * option (list fld)) : Prop :=
  exists nonce pub i0 nonce' pub' i1 st0 sh0 st1 sh1,
    r0 = RSPrio3 nonce pub i0 /\ r1 = RSPrio3 nonce' pub' i1 /\
    p3_prep_init E len vk 0 nonce pub i0 = Some (st0, sh0) /\ p3_prep_init E len vk 1 nonce' pub' i1 = Some (st1, sh1) /\
    p3_decode_share E st0 sh1 = Some sh1 /\ p3_decode_share E st1 sh0 = Some sh0 /\
    own_verdict E len st0 sh0 sh1 (fst v) /\ own_verdict E len st1 sh0 sh1 (snd v).
(** two aggregators holding, from position a on, reports with the given verdicts *)
Definition verdict_pair (E : env) (len : nat) (vk : bytes) (s0 s1 : server) (a : nat) (vs : list (option (list fld) * option (list fld))) : Prop :=
  s_poison s0 = false /\ s_poison s1 = false /\ s_id s0 = 0%Z /\ s_id s1 = 1%Z /\
  c_len (s_coll s0) = len /\ c_len (s_coll s1) = len /\ c_vk (s_coll s0) = vk /\ c_vk (s_coll s1) = vk /\
  forall k v, nth_error vs k = Some v -> exists h0 r0 h1 r1,
    nth_error (c_reports (s_coll s0)) (a + k) = Some (h0, r0) /\ nth_error (c_reports (s_coll s1)) (a + k) = Some (h1, r1) /\ verdicts E len vk r0 r1 v.
(** how many reports an aggregator rejects *)
Definition rejections (vs : list (option (list fld))) : nat := length (filter (fun v => match v with None => true | Some _ => false end) vs).
Definition same_number (vs : list (option (list fld) * option (list fld))) : bool := rejections (map fst vs) =? rejections (map snd vs).
(** the printed histogram: each aggregator's own output shares added up *)
Definition verdict_histogram (len : nat) (vs : list (option (list fld) * option (list fld))) : list Z * Z :=
  (map (fun j => fval (fadd (fsum (map (fun o => nth j o (of_Z 0)) (somes (map fst vs)))) (fsum (map (fun o => nth j o (of_Z 0)) (somes (map snd vs)))))) (seq 0 len),
   Z.of_nat (rejections (map fst vs))).
(** the histogram of the reports both accept *)
Definition agreed (v : option (list fld) * option (list fld)) : option (list fld) :=
  match v with (Some a, Some b) => Some (sum_onto a b) | _ => None end.

(** *** Prio3 itself *)
(** the aggregators' checks of two input shares pass together although they used different joint randomness *)
Definition passed_apart (E : env) (len : nat) (vk n0 n1 i0 i1 : bytes) : Prop :=
  exists x0 p0 b0 x1 p1 b1 s0 s1 v0 v1, p3_input E len 0 i0 = Some (x0, p0, b0) /\ p3_input E len 1 i1 = Some (x1, p1, b1) /\ s0 <> s1 /\
    hist_query (chunk_length_plain len) len x0 p0 (p3_query_rand E vk n0) (p3_joint_rand E s0) 2 = Some v0 /\
    hist_query (chunk_length_plain len) len x1 p1 (p3_query_rand E vk n1) (p3_joint_rand E s1) 2 = Some v1 /\
    hist_decide (chunk_length_plain len) (add_shares v0 v1) = Some true.
