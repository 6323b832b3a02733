(** Specification vocabulary for attribute-based and plain metrics. *)
From Verif Require Import Base Field Util Env Prg Vidpf Merkle Collect Server Driver SpecCollect.

(** component j of the share of attribute a *)
Definition comp (a j : nat) (vals : list (list fld)) : fld := nth j (nth a vals []) (of_Z 0).
(** ... summed over a list of reports *)
Definition total (a j : nat) (vs : list (list (list fld))) : fld := fsum (map (comp a j) vs).
(** agg is the table of n attributes with len buckets holding these sums *)
Definition is_table (len n : nat) (vs : list (list (list fld))) (agg : list (list fld)) : Prop :=
  length agg = n /\ forall a, a < n -> length (nth a agg []) = len /\
  forall j, j < len -> nth j (nth a agg []) (of_Z 0) = total a j vs.

(** what report i of the collector contributes *)
Definition attr_share (E : env) (c : coll) (attrs : list (list bool)) (i : nat) (vs : list (list fld)) : Prop :=
  exists h nonce k proof jr beta tr, nth_error (c_reports c) i = Some (h, RSMastic nonce k proof jr) /\
    eval_tree E k attrs (c_len c) [] = Ret (vs, beta, tr).

(** the entries whose key is not in the list *)
Definition without {V} (dead : list nat) (m : list (nat * V)) : list (nat * V) :=
  filter (fun kv => negb (existsb (Nat.eqb (fst kv)) dead)) m.

(** how Prio3 preparation of one report goes when both aggregators follow it: rejected by both (None),
    or accepted by both with output shares that add up to the measurement *)
Definition p3_run (E : env) (len : nat) (vk : bytes) (r0 r1 : report_share) (res : option (list fld)) : Prop :=
  exists nonce pub i0 nonce' pub' i1 st0 sh0 st1 sh1,
    r0 = RSPrio3 nonce pub i0 /\ r1 = RSPrio3 nonce' pub' i1 /\
    p3_prep_init E len vk 0 nonce pub i0 = Some (st0, sh0) /\ p3_prep_init E len vk 1 nonce' pub' i1 = Some (st1, sh1) /\
    p3_decode_share E st0 sh1 = Some sh1 /\ p3_decode_share E st1 sh0 = Some sh0 /\
    match res with
    | None => p3_msg E len sh0 sh1 = None \/
              exists m, p3_msg E len sh0 sh1 = Some m /\ p3_next E len st0 m = None /\ p3_next E len st1 m = None
    | Some beta => exists m o0 o1, p3_msg E len sh0 sh1 = Some m /\
              p3_next E len st0 m = Some (P3Finish o0) /\ p3_next E len st1 m = Some (P3Finish o1) /\
              length o0 = len /\ length o1 = len /\ length beta = len /\
              forall j, j < len -> fadd (nth j o0 (of_Z 0)) (nth j o1 (of_Z 0)) = nth j beta (of_Z 0)
    end.

(** the accepted measurements *)
Definition somes {A} (l : list (option A)) : list A := concat (map (fun o => match o with Some a => [a] | None => [] end) l).

(** two aggregators holding, from position a on, reports whose preparation goes as listed in rs *)
Definition prio_pair (E : env) (len : nat) (vk : bytes) (s0 s1 : server) (a : nat) (rs : list (option (list fld))) : Prop :=
  s_poison s0 = false /\ s_poison s1 = false /\ s_id s0 = 0%Z /\ s_id s1 = 1%Z /\
  c_len (s_coll s0) = len /\ c_len (s_coll s1) = len /\ c_vk (s_coll s0) = vk /\ c_vk (s_coll s1) = vk /\
  forall k res, nth_error rs k = Some res -> exists h0 r0 h1 r1,
    nth_error (c_reports (s_coll s0)) (a + k) = Some (h0, r0) /\ nth_error (c_reports (s_coll s1)) (a + k) = Some (h1, r1) /\
    p3_run E len vk r0 r1 res.
