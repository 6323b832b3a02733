(** Specification for C86: an aggregator that has chosen reports of plain metrics rejected. *)
From Verif Require Import Base Field Util Env Prg Vidpf Merkle Collect Server Driver Modes SpecVidpf SpecCollect SpecLevel SpecWhh SpecMetrics SpecModes Sched System SpecTamper.

(** The lie about the preparation shares of the reports at the positions in D and, if [full], about the result: the
    aggregator takes its output shares of these reports out of its sum and adds their number to that of the rejected ones. *)
Definition suppress (full : bool) (sp : bytes -> bytes) (D : nat -> bool) (out : nat -> list fld) (q : request) (r : response) : response :=
  match q, r with
  | QPmValidate start _, APm l => APm (map (fun ix => if D (start + fst ix) then sp (snd ix) else snd ix) (numbered l))
  | QPmResult _ start stop, APmResult agg n =>
      let hits := filter D (seq start (stop - start)) in
      if full then APmResult (raised (fun j => fneg (fsum (map (fun i => nth j (out i) (of_Z 0)) hits))) agg) (n + Z.of_nat (length hits)) else r
  | _, _ => r
  end.

(** preparation with these two shares is rejected in state st *)
Definition refused (E : env) (len : nat) (st a b : bytes) : Prop :=
  p3_msg E len a b = None \/ exists m, p3_msg E len a b = Some m /\ p3_next E len st m = None.
(** a report that the liar, the first aggregator if [who], would accept with output share [out], while the other aggregator
    rejects it given the changed preparation share of the liar *)
Definition suppressible (E : env) (len : nat) (vk : bytes) (who : bool) (sp : bytes -> bytes) (r0 r1 : report_share) (out : list fld) : Prop :=
  exists nonce pub i0 nonce' pub' i1 st0 sh0 st1 sh1 m,
    r0 = RSPrio3 nonce pub i0 /\ r1 = RSPrio3 nonce' pub' i1 /\
    p3_prep_init E len vk 0 nonce pub i0 = Some (st0, sh0) /\ p3_prep_init E len vk 1 nonce' pub' i1 = Some (st1, sh1) /\
    p3_msg E len sh0 sh1 = Some m /\ length out = len /\
    if who then p3_decode_share E st0 sh1 = Some sh1 /\ p3_next E len st0 m = Some (P3Finish out) /\
                p3_decode_share E st1 (sp sh0) = Some (sp sh0) /\ refused E len st1 (sp sh0) sh1
    else p3_decode_share E st1 sh0 = Some sh0 /\ p3_next E len st1 m = Some (P3Finish out) /\
         p3_decode_share E st0 (sp sh1) = Some (sp sh1) /\ refused E len st0 sh0 (sp sh1).
Definition suppressible_choice (E : env) (shard : sharding) (len : nat) (vk : bytes) (clients : list pm_client) (who : bool) (sp : bytes -> bytes)
           (out : list fld) (ch : choice) : Prop :=
  ch_malicious ch = false /\ exists cl pub i0 i1, nth_error clients (ch_idx ch) = Some cl /\
    shard len (pc_bucket cl) (pc_nonce cl) (pc_rand cl) = Some (pub, (i0, i1)) /\
    suppressible E len vk who sp (RSPrio3 (pc_nonce cl) pub i0) (RSPrio3 (pc_nonce cl) pub i1) out.
(** the votes with those at the positions in D struck out *)
Definition votes_without (D : nat -> bool) (clients : list pm_client) (chs : list choice) : list (option nat) :=
  map (fun iv => if D (fst iv) then None else snd iv) (numbered (pm_votes clients chs)).
