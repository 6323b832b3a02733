(** Honest reports pass every check, whatever else the aggregators hold (C43). *)
From Verif Require Import Base BaseFacts Field Util UtilFacts Env Prg PrgFacts PrgSpecFacts2 Vidpf SpecVidpf SpecTree VidpfFacts VidpfEvalFacts VidpfTreeFacts VidpfTreeFacts3 VidpfTreeFacts4
  Merkle Collect Server Driver SpecCollect SpecServer SpecDriver SpecCheck SpecLevel SpecWhh CollectFacts CollectInv ServerFacts DriverFacts DriverPropFacts RefuteFacts MerkleFacts LevelFacts PairFacts.

Lemma body_sid E s q c a : c_sid (s_coll s) = s_id s -> body E s q = Ret (c, a) -> c_sid c = s_id s.
Proof.
  intros Hn H. destruct q; cbn [body] in H.
  - destruct (hist_ok hist_buckets); [|discriminate]. injection H as <- <-. reflexivity.
  - injection H as <- <-. rewrite add_reports_spec. exact Hn.
  - bret H as c1 H1. injection H as <- <-. unfold tree_init in H1. bret H1 as st Hst. injection H1 as <-. exact Hn.
  - bret H as u Hu. bret H as v Hv. injection H as <- <-. exact Hn.
  - bret H as c1 H1. injection H as <- <-. rewrite apply_flp_results_spec in H1. destruct (_ =? _); [|discriminate]. injection H1 as <-. exact Hn.
  - bret H as [c1 [[v r] i]] H1. injection H as <- <-. unfold tree_crawl in H1. bret H1 as c2 H2.
    bret H1 as n0 Hn0. bret H1 as u Hu. bret H1 as nx Hnx. bret H1 as ck Hck. bret H1 as hs Hhs. bret H1 as u2 Hu2. bret H1 as [rr ii] Hm.
    injection H1 as <- <- <- <-. cbn [set_frontier set_prev c_sid]. apply crawl_prepare_ok in H2. destruct H2 as (_ & -> & _). exact Hn.
  - bret H as [c1 v] H1. injection H as <- <-. unfold tree_crawl_last in H1. bret H1 as nx Hnx. bret H1 as pf Hpf. injection H1 as <- <-. exact Hn.
  - bret H as u Hu. injection H as <- <-. exact Hn.
  - bret H as c1 H1. injection H as <- <-. rewrite tree_prune_spec in H1. destruct (_ =? _); [|discriminate]. injection H1 as <-. exact Hn.
  - injection H as <- <-. exact Hn.
  - bret H as [c1 v] H1. injection H as <- <-. unfold abm_validate in H1. destruct (_ <? _); [discriminate|]. bret H1 as rs Hrs. injection H1 as <- <-. exact Hn.
  - bret H as [c1 v] H1. injection H as <- <-. unfold abm_result in H1. bret H1 as m Hm. injection H1 as <- <-. exact Hn.
  - bret H as [c1 v] H1. injection H as <- <-. unfold pm_validate in H1. destruct (_ <? _); [discriminate|]. destruct (_ <? _)%Z; [discriminate|]. destruct (negb _); [discriminate|].
    bret H1 as rs Hrs. injection H1 as <- <-. exact Hn.
  - bret H as [c1 [v z]] H1. injection H as <- <-. unfold pm_result in H1. destruct (negb _); [discriminate|]. bret H1 as [m outs] Hm. bret H1 as agg Hagg. injection H1 as <- <- <-. exact Hn.
Qed.
Lemma handle_sid E s q : c_sid (s_coll s) = s_id s -> c_sid (s_coll (fst (handle E s q))) = s_id (fst (handle E s q)).
Proof.
  intros H. rewrite (proj1 (handle_ids E s q)). destruct (handle E s q) as [s' a] eqn:Hh. cbn [fst]. apply handle_inv in Hh.
  destruct Hh as [(-> & _)|[(_ & -> & _)|(_ & c & r & Hb & -> & _)]]; [exact H|exact H|]. cbn [set_coll s_coll]. eapply body_sid; eassumption.
Qed.
Lemma handle_all_sid E qs : forall s, c_sid (s_coll s) = s_id s -> c_sid (s_coll (fst (handle_all E s qs))) = s_id s.
Proof.
  induction qs as [|q qs IH]; intros s H; [exact H|]. rewrite handle_all_cons. cbn [fst]. rewrite (IH _ (handle_sid E s q H)). apply handle_ids.
Qed.

Section Honest.
Variable E : env.
Hypothesis Hok : env_ok E.

(** what a reachable aggregator holds when its next level can be built *)
Lemma reach_fronts c b next : cinv E c -> c_frontier c <> [] -> crawl_children E c b = Ret next ->
  fronts E (c_len c) (c_reports c) (map tn_path (c_frontier c)) (c_frontier c) /\
  (forall p, In p (map tn_path (c_frontier c)) -> defined_at E (c_len c) (c_reports c) p).
Proof.
  intros [(n & Hn & Hf & _ & _) _] Hne Hc. apply crawl_children_inv in Hc. destruct Hc as (pairs & _ & Hp).
  assert (Hlen : n = length (c_reports c)).
  { destruct (c_frontier c) as [|n0 f]; [contradiction|]. inversion Hp as [|? lr ? ? [Hl _] _]. subst.
    apply (make_tree_node_ok E c n n0 false (fst lr) Hn (Hf n0 (or_introl eq_refl)) Hl). }
  subst n. clear Hp Hne. split.
  - induction (c_frontier c) as [|n0 f IH]; [constructor|]. constructor; [|apply IH; intros; apply Hf; right; assumption].
    apply (node_ok_is E). apply Hf. left. reflexivity.
  - intros p Hin. apply in_map_iff in Hin. destruct Hin as (x & <- & Hx). apply (node_ok_is E (c_len c) (c_reports c) x). apply Hf. exact Hx.
Qed.

Section Two.
Variables (c0 c1 : coll) (i : nat) (f0 f1 : bool) (r0 r1 : report_share) (alpha : list bool) (beta : list fld).
Hypothesis (I0 : cinv E c0) (I1 : cinv E c1).
Hypothesis (S0 : (c_sid c0 =? 0)%Z = true) (S1 : (c_sid c1 =? 0)%Z = false).
Hypothesis (L0 : c_len c0 = length beta) (L1 : c_len c1 = length beta).
Hypothesis (R0 : nth_error (c_reports c0) i = Some (f0, r0)) (R1 : nth_error (c_reports c1) i = Some (f1, r1)).
Hypothesis Hh : honest_pair E (key_of r0) (key_of r1) alpha beta.
Hypothesis Hp : map tn_path (c_frontier c0) = map tn_path (c_frontier c1).
Hypothesis Hne : c_frontier c0 <> [].

Lemma other_nonempty : c_frontier c1 <> [].
Proof. intros H. rewrite H in Hp. destruct (c_frontier c0); [apply Hne; reflexivity|discriminate]. Qed.

Lemma level_equal level b0 b1 next0 next1 checks0 checks1 : (forall n, In n (c_frontier c0) -> length (tn_path n) = level) -> level < length alpha ->
  crawl_children E c0 b0 = Ret next0 -> crawl_children E c1 b1 = Ret next1 -> y_checks E c0 level next0 = Ret checks0 -> y_checks E c1 level next1 = Ret checks1 ->
  exists h, client_hash E c0 level next0 checks0 i = Ret h /\ client_hash E c1 level next1 checks1 i = Ret h.
Proof.
  intros Hlv Hla C0 C1 Y0 Y1.
  destruct (reach_fronts _ _ _ I0 Hne C0) as [F0 D0]. destruct (reach_fronts _ _ _ I1 other_nonempty C1) as [F1 D1].
  destruct (crawl_children_only E _ _ _ _ F0 D0 C0) as [-> A0]. destruct (crawl_children_only E _ _ _ _ F1 D1 C1) as [-> A1].
  rewrite (y_checks_ret E c0 level _ F0) in Y0. rewrite (y_checks_ret E c1 level _ F1) in Y1.
  assert (Hr : forall A (a b : A), Ret a = Ret b -> a = b) by congruence. apply Hr in Y0, Y1. subst checks0 checks1.
  rewrite (client_hash_ret E c0 level _ i f0 r0 R0 A0), (client_hash_ret E c1 level _ i f1 r1 R1 A1). rewrite S0, S1, L0, L1, <- Hp.
  eexists. split; [reflexivity|]. f_equal. symmetry. apply (honest_strings E Hok _ _ alpha beta Hh).
  - intros p Hin. apply in_map_iff in Hin. destruct Hin as (x & <- & Hx). apply Hlv. exact Hx.
  - exact Hla.
Qed.

Lemma last_equal b0 b1 next0 next1 : (forall n, In n (c_frontier c0) -> length (tn_path n) < length alpha) -> crawl_children E c0 b0 = Ret next0 -> crawl_children E c1 b1 = Ret next1 ->
  exists h, xor_proofs next0 i = Ret h /\ xor_proofs next1 i = Ret h.
Proof.
  intros Hs C0 C1.
  destruct (reach_fronts _ _ _ I0 Hne C0) as [F0 D0]. destruct (reach_fronts _ _ _ I1 other_nonempty C1) as [F1 D1].
  destruct (crawl_children_only E _ _ _ _ F0 D0 C0) as [-> A0]. destruct (crawl_children_only E _ _ _ _ F1 D1 C1) as [-> A1].
  rewrite (xor_proofs_ret E _ _ _ _ _ _ R0 (crawlable_children E _ _ _ A0)), (xor_proofs_ret E _ _ _ _ _ _ R1 (crawlable_children E _ _ _ A1)).
  eexists. split; [reflexivity|]. f_equal. rewrite L0, L1, <- Hp. symmetry. apply (honest_proofs_xor E Hok _ _ alpha beta Hh). intros q Hq. apply children_in in Hq. destruct Hq as (p & d & Hin & ->).
  split; [destruct p; discriminate|]. apply in_map_iff in Hin. destruct Hin as (x & <- & Hx). specialize (Hs x Hx). rewrite app_length. cbn. lia.
Qed.
End Two.
End Honest.

Lemma reach_cinv E id bits h qs : cinv E (s_coll (fst (handle_all E (server_start id bits h) qs))).
Proof. apply handle_all_cinv. apply cinv_new. Qed.
Lemma reach_sid E id bits h qs : c_sid (s_coll (fst (handle_all E (server_start id bits h) qs))) = id.
Proof. rewrite handle_all_sid; reflexivity. Qed.
Lemma honest_keys_pair E k0 k1 alpha beta : env_ok E -> honest_keys E k0 k1 alpha beta -> honest_pair E k0 k1 alpha beta.
Proof. intros Hok (s0 & s1 & H0 & H1 & Hg). apply (gen_honest E s0 s1); assumption. Qed.

Lemma level_checks_equal E id bits0 bits1 h0 h1 qs0 qs1 s0 s1 i f0 f1 r0 r1 alpha beta level b0 b1 next0 next1 checks0 checks1 :
  env_ok E -> id <> 0%Z -> s0 = fst (handle_all E (server_start 0 bits0 h0) qs0) -> s1 = fst (handle_all E (server_start id bits1 h1) qs1) ->
  nth_error (c_reports (s_coll s0)) i = Some (f0, r0) -> nth_error (c_reports (s_coll s1)) i = Some (f1, r1) ->
  honest_keys E (key_of r0) (key_of r1) alpha beta -> c_len (s_coll s0) = length beta -> c_len (s_coll s1) = length beta ->
  c_frontier (s_coll s0) <> [] -> map tn_path (c_frontier (s_coll s0)) = map tn_path (c_frontier (s_coll s1)) ->
  (forall n, In n (c_frontier (s_coll s0)) -> length (tn_path n) = level) -> level < length alpha ->
  crawl_children E (s_coll s0) b0 = Ret next0 -> crawl_children E (s_coll s1) b1 = Ret next1 ->
  (y_checks E (s_coll s0) level next0 = Ret checks0 -> y_checks E (s_coll s1) level next1 = Ret checks1 ->
   exists h, client_hash E (s_coll s0) level next0 checks0 i = Ret h /\ client_hash E (s_coll s1) level next1 checks1 i = Ret h) /\
  (exists h, xor_proofs next0 i = Ret h /\ xor_proofs next1 i = Ret h).
Proof.
  intros Hok Hid -> -> R0 R1 Hk L0 L1 Hne Hp Hlv Hla C0 C1.
  pose proof (honest_keys_pair _ _ _ _ _ Hok Hk) as Hh.
  assert (S0 : (c_sid (s_coll (fst (handle_all E (server_start 0 bits0 h0) qs0))) =? 0)%Z = true) by (rewrite reach_sid; reflexivity).
  assert (S1 : (c_sid (s_coll (fst (handle_all E (server_start id bits1 h1) qs1))) =? 0)%Z = false) by (rewrite reach_sid; apply Z.eqb_neq; exact Hid).
  split.
  - intros Y0 Y1. eapply (level_equal E Hok (s_coll (fst (handle_all E (server_start 0 bits0 h0) qs0))) (s_coll (fst (handle_all E (server_start id bits1 h1) qs1))));
      try eassumption; apply reach_cinv.
  - eapply (last_equal E Hok (s_coll (fst (handle_all E (server_start 0 bits0 h0) qs0))) (s_coll (fst (handle_all E (server_start id bits1 h1) qs1))));
      try eassumption; try apply reach_cinv. intros n Hn. rewrite (Hlv n Hn). exact Hla.
Qed.
