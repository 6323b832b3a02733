(** Property C59 (src/bin/server.rs, src/collect.rs): two drivers using the same pair of aggregators. *)
From Verif Require Import Base Field Util Env Prg Vidpf Merkle Collect Server SpecServer SpecDriver SpecTwo TwoFacts TwoExamples.

(** C59: if the upload requests of two drivers reach both aggregators in the same order, the shares held
    at equal positions belong to the same report ... *)
Theorem C59_same_order : forall E s0 s1 p (a b : list (list (report_share * report_share))),
  s_poison s0 = false -> s_poison s1 = false ->
  let t0 := fst (handle_all E s0 (weave p (map (upload_to true) a) (map (upload_to true) b))) in
  let t1 := fst (handle_all E s1 (weave p (map (upload_to false) a) (map (upload_to false) b))) in
  held_shares t0 = held_shares s0 ++ map fst (concat (weave p a b)) /\ held_shares t1 = held_shares s1 ++ map snd (concat (weave p a b)).
Proof. exact C59_same_order_lemma. Qed.
Print Assumptions C59_same_order.
(** ... otherwise they do not: where the orders first differ, one aggregator holds a share of a report of
    the first driver and the other a share of a report of the second. *)
Theorem C59_refuted_order : forall E s0 s1 p q0 q1 (a b : list (report_share * report_share)),
  s_poison s0 = false -> s_poison s1 = false -> merges (p ++ true :: q0) a b -> merges (p ++ false :: q1) a b ->
  let one := map (fun r => [r]) in
  let t0 := fst (handle_all E s0 (weave (p ++ true :: q0) (map (upload_to true) (one a)) (map (upload_to true) (one b)))) in
  let t1 := fst (handle_all E s1 (weave (p ++ false :: q1) (map (upload_to false) (one a)) (map (upload_to false) (one b)))) in
  exists x y, nth_error a (count true p) = Some x /\ nth_error b (count false p) = Some y /\
    nth_error (held_shares t0) (length (held_shares s0) + length p) = Some (fst x) /\
    nth_error (held_shares t1) (length (held_shares s1) + length p) = Some (snd y).
Proof. exact C59_order_lemma. Qed.
Print Assumptions C59_refuted_order.
(** Nor can a driver start while another one is about to verify the weights: after its reset the other's
    request panics, and with it every later request of either driver ... *)
Theorem C59_refuted_reset : forall E s vk h start stop, s_poison s = false -> hist_ok h = true ->
  let s1 := fst (handle E s (QReset vk h)) in
  let s2 := fst (handle E s1 (QRunFlpQueries start stop)) in
  panicked (snd (handle E s1 (QRunFlpQueries start stop))) /\ forall qs, fst (handle_all E s2 qs) = s2 /\ Forall panicked (snd (handle_all E s2 qs)).
Proof. exact C59_reset_lemma. Qed.
Print Assumptions C59_refuted_reset.
(** ... and the same happens if reports arrive after tree_init. *)
Theorem C59_refuted_late : forall E s rs start stop, s_poison s = false -> snd (handle E s QTreeInit) = Ret ADone -> rs <> [] ->
  let s1 := fst (handle_all E s [QTreeInit; QAddReportShares rs]) in
  let s2 := fst (handle E s1 (QRunFlpQueries start stop)) in
  panicked (snd (handle E s1 (QRunFlpQueries start stop))) /\ forall qs, fst (handle_all E s2 qs) = s2 /\ Forall panicked (snd (handle_all E s2 qs)).
Proof. exact C59_late_lemma. Qed.
Print Assumptions C59_refuted_late.
(** two drivers with one report each, in the same and in different orders; a reset and a late upload
    between tree_init and the weight check *)
Example C59_example : two_check = true /\ two_later = true.
Proof. exact (conj two_ok two_later_ok). Qed.
