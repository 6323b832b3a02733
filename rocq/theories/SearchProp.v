(** One level with inconsistent reports, in the terms of SpecSearch (C24, C25, C26). *)
From Verif Require Import Base BaseFacts Field Util UtilFacts Env Prg Vidpf SpecVidpf SpecTree Merkle Collect Server Driver SpecCollect SpecServer SpecDriver SpecCheck SpecLevel SpecWhh SpecSearch
  CollectFacts CollectInv ServerFacts DriverFacts RefuteFacts MerkleFacts LevelFacts PairFacts WhhFacts WhhFacts2 SearchFacts SearchRun SearchMain HonestFacts.

(** a reachable aggregator whose tree covers all its reports *)
Lemma reach_at_frontier E id bits0 hist qs s bits : s = fst (handle_all E (server_start id bits0 hist) qs) -> s_poison s = false -> c_depth (s_coll s) = Some bits ->
  (forall node, In node (c_frontier (s_coll s)) -> length (tn_values node) = length (c_reports (s_coll s))) ->
  at_frontier E (id =? 0)%Z (c_len (s_coll s)) bits (map tn_path (c_frontier (s_coll s))) (c_reports (s_coll s)) s.
Proof.
  intros Hs Hpo Hd Hn. unfold at_frontier. split; [exact Hpo|]. split; [rewrite Hs, reach_sid; reflexivity|]. split; [reflexivity|]. split; [exact Hd|].
  split; [reflexivity|]. split; [reflexivity|]. intros node Hin.
  assert (Hi : cinv E (s_coll s)) by (rewrite Hs; apply reach_cinv). destruct Hi as [(n & Hle & Hf & _) _]. specialize (Hf node Hin).
  rewrite <- (Hn node Hin). destruct Hf as (Ha & Hb & Hc). rewrite Hb. apply node_ok_holds. split; [exact Ha|split; [exact Hb|exact Hc]].
Qed.

Lemma clear_shares is (R : list pair) : map snd (clear_at is R) = map snd R.
Proof.
  apply nth_error_ext. intros i. rewrite !nth_error_map', clear_nth. transitivity (option_map snd (@nth_error pair R i)); [|reflexivity].
  destruct (@nth_error pair R i); reflexivity.
Qed.
Section Finish.
Variables (E : env) (len bits level : nat) (paths : list (list bool)) (R : list pair) (cfg : config).
Hypothesis Hok : env_ok E.
Hypothesis Hwf : Forall (fun x => well_formed bits (share_of true x) /\ well_formed bits (share_of false x)) R.
Hypothesis Hp : forall p, In p paths -> length p = level.
Hypothesis Hl : level < bits.

Lemma defs_same P first p : map snd P = map snd R -> length p <= bits -> defined_at E len (held first P) p.
Proof.
  intros HP Hpl. apply (wf_defined E Hok bits); [|exact Hpl].
  assert (Hh : map snd (held first P) = map snd (held first R)).
  { assert (Hs : forall Q : list pair, map snd (held first Q) = map (fun y : report_share * report_share => if first then fst y else snd y) (map snd Q)) by (intros Q; unfold held; rewrite !map_map; reflexivity).
    rewrite !Hs, HP. reflexivity. }
  rewrite Hh. unfold held. rewrite map_map. cbn [snd]. apply Forall_map. eapply Forall_impl; [|exact Hwf]. intros x [Ha Hb]. destruct first; assumption.
Qed.
Lemma children_level q : In q (children paths) -> q <> [] /\ length q <= bits.
Proof. intros Hq. apply children_in in Hq. destruct Hq as (p & d & Hin & ->). split; [destruct p; discriminate|]. rewrite app_length, (Hp _ Hin). cbn. lia. Qed.

Lemma finish P ss thr' : map snd P = map snd R -> ended E len bits paths thr' P ss ->
  exists t0 t1, call2_done E (fst ss) (snd ss) (QTreePrune (map (fun p => (threshold cfg <=? seen_count E len P p)%Z) (children paths)))
                                               (QTreePrune (map (fun p => (threshold cfg <=? seen_count E len P p)%Z) (children paths))) = Ret (t0, t1) /\
  after_level E len bits (threshold cfg) P paths t0 t1.
Proof.
  intros HP (A0 & F0 & A1 & F1).
  destruct (handle_prune E len bits _ _ _ _ (fun p => (threshold cfg <=? seen_count E len P p)%Z) A0 F0) as (t0 & HP0 & HT0 & HF0 & _).
  destruct (handle_prune E len bits _ _ _ _ (fun p => (threshold cfg <=? seen_count E len P p)%Z) A1 F1) as (t1 & HP1 & HT1 & HF1 & _).
  exists t0, t1. split; [apply call2_done_ret; eauto|].
  assert (Hin : forall q, In q (survivors E len (threshold cfg) P paths) -> q <> [] /\ length q <= bits) by (intros q Hq; apply filter_In in Hq; apply children_level, Hq).
  split; [|split; [|split]].
  - apply side_at; [exact HT0|]. intros q Hq. apply (defs_same P true q HP), Hin, Hq.
  - apply side_at; [exact HT1|]. intros q Hq. apply (defs_same P false q HP), Hin, Hq.
  - intros node Hn. rewrite HF0 in Hn. apply in_map_iff in Hn. destruct Hn as (q & <- & Hq). apply (mknode_sums E); [apply Hin, Hq|]. apply (defs_same P true q HP), Hin, Hq.
  - intros node Hn. rewrite HF1 in Hn. apply in_map_iff in Hn. destruct Hn as (q & <- & Hq). apply (mknode_sums E); [apply Hin, Hq|]. apply (defs_same P false q HP), Hin, Hq.
Qed.
End Finish.

Section Cases.
Variables (E : env) (len bits level : nat) (paths : list (list bool)) (R : list pair) (s0 s1 : server) (fuel : nat) (cfg : config).
Hypothesis Hok : env_ok E.
Hypothesis H0 : at_frontier E true len bits paths (held true R) s0.
Hypothesis H1 : at_frontier E false len bits paths (held false R) s1.
Hypothesis Hwf : Forall (fun x => well_formed bits (share_of true x) /\ well_formed bits (share_of false x)) R.
Hypothesis Hne : paths <> [].
Hypothesis Hp : forall p, In p paths -> length p = level.
Hypothesis Hl : level < bits.
Hypothesis Hm : 1 <= length (remaining R).
Hypothesis Hclog : clog2f E (length (remaining R)) = Nat.log2_up (length (remaining R)).
Hypothesis Hnc : no_collision E (map (vstring E true len level paths) (remaining R)) (map (vstring E false len level paths) (remaining R)).
Hypothesis Hcfg : cfg_hist cfg = len.
Hypothesis Hfuel : Nat.log2_up (length R) + 2 <= fuel.
Notation bad := (bad_ranks E len level paths R).

Lemma fuel_ok : Nat.log2_up (length (remaining R)) + 2 <= fuel.
Proof. pose proof (Nat.log2_up_le_mono _ _ (remaining_le R)). lia. Qed.

Lemma search_none : bad = [] -> exists t0 t1, run_level fuel E cfg s0 s1 (length R) = Ret (t0, t1) /\ after_level E len bits (threshold cfg) R paths t0 t1.
Proof.
  intros Hb. rewrite (bad_ranks_blocks E len bits level paths R Hl Hm Hclog) in Hb.
  destruct (search_all E Hok len bits level paths R s0 s1 (threshold cfg) (at_side _ _ _ _ _ _ _ H0) (at_side _ _ _ _ _ _ _ H1) Hwf Hne Hp Hl Hm Hclog Hnc fuel fuel_ok) as [Hc _].
  destruct (Hc Hb) as (q & Hq & He). destruct (finish E len bits level paths R cfg Hok Hwf Hp Hl R _ _ eq_refl He) as (t0 & t1 & Ht & Ha). exists t0, t1. split; [|exact Ha].
  unfold run_level. rewrite Hcfg, Hq. cbn [bind]. exact Ht.
Qed.
Lemma search_found : bad <> [] -> Nat.log2_up (length R) = Nat.log2_up (length (remaining R)) -> remaining (clear_at bad R) <> [] ->
  exists t0 t1, run_level fuel E cfg s0 s1 (length R) = Ret (t0, t1) /\ after_level E len bits (threshold cfg) (clear_at bad R) paths t0 t1.
Proof.
  intros Hb Hn Hr. rewrite (bad_ranks_blocks E len bits level paths R Hl Hm Hclog) in *.
  destruct (search_all E Hok len bits level paths R s0 s1 (threshold cfg) (at_side _ _ _ _ _ _ _ H0) (at_side _ _ _ _ _ _ _ H1) Hwf Hne Hp Hl Hm Hclog Hnc fuel fuel_ok) as (_ & Hc & _).
  destruct (Hc Hb Hn Hr) as (ss & q & Hq & He). destruct (finish E len bits level paths R cfg Hok Hwf Hp Hl _ _ _ (clear_shares _ _) He) as (t0 & t1 & Ht & Ha). exists t0, t1. split; [|exact Ha].
  unfold run_level. rewrite Hcfg, Hq. cbn [bind]. exact Ht.
Qed.
Lemma search_all_bad : bad <> [] -> Nat.log2_up (length R) = Nat.log2_up (length (remaining R)) -> remaining (clear_at bad R) = [] ->
  run_level fuel E cfg s0 s1 (length R) = Panic PIndex.
Proof.
  intros Hb Hn Hr. rewrite (bad_ranks_blocks E len bits level paths R Hl Hm Hclog) in *.
  destruct (search_all E Hok len bits level paths R s0 s1 (threshold cfg) (at_side _ _ _ _ _ _ _ H0) (at_side _ _ _ _ _ _ _ H1) Hwf Hne Hp Hl Hm Hclog Hnc fuel fuel_ok) as (_ & _ & Hc & _).
  unfold run_level. rewrite Hcfg. rewrite (Hc Hb Hn Hr). reflexivity.
Qed.
Lemma search_shrunk : bad <> [] -> Nat.log2_up (length (remaining R)) < Nat.log2_up (length R) -> run_level fuel E cfg s0 s1 (length R) = Panic PArith.
Proof.
  intros Hb Hn. rewrite (bad_ranks_blocks E len bits level paths R Hl Hm Hclog) in *.
  destruct (search_all E Hok len bits level paths R s0 s1 (threshold cfg) (at_side _ _ _ _ _ _ _ H0) (at_side _ _ _ _ _ _ _ H1) Hwf Hne Hp Hl Hm Hclog Hnc fuel fuel_ok) as (_ & _ & _ & Hc).
  unfold run_level. rewrite Hcfg. rewrite (Hc Hb Hn). reflexivity.
Qed.
End Cases.

(** *** no report rejected before *)
Lemma all_remaining R : all_accepted R -> remaining R = R.
Proof. unfold remaining. induction 1 as [|[h x] R Hh HR IH]; [reflexivity|]. cbn [filter]. cbn in Hh. subst h. cbn [fst]. rewrite IH. reflexivity. Qed.
Lemma existsb_rank E len level paths R i : existsb (Nat.eqb i) (bad_ranks E len level paths R) =
  match nth_error (remaining R) i with Some x => negb (consistent E len level paths x) | None => false end.
Proof.
  unfold bad_ranks. destruct (existsb (Nat.eqb i) _) eqn:Hx.
  - apply existsb_exists in Hx. destruct Hx as (j & Hj & He). apply Nat.eqb_eq in He. subst j. apply filter_In in Hj. symmetry. apply Hj.
  - destruct (nth_error (remaining R) i) as [x|] eqn:Hi; [|reflexivity]. destruct (consistent E len level paths x) eqn:Hc; [reflexivity|]. exfalso.
    assert (Hin : In i (filter (fun i => match nth_error (remaining R) i with Some x => negb (consistent E len level paths x) | None => false end) (seq 0 (length (remaining R))))).
    { apply filter_In. split; [apply in_seq; split; [lia|]; apply nth_error_Some; congruence|]. rewrite Hi, Hc. reflexivity. }
    assert (existsb (Nat.eqb i) (filter (fun i => match nth_error (remaining R) i with Some x => negb (consistent E len level paths x) | None => false end) (seq 0 (length (remaining R)))) = true).
    { apply existsb_exists. exists i. split; [exact Hin|apply Nat.eqb_refl]. }
    congruence.
Qed.
Lemma clear_consistent E len level paths R : all_accepted R ->
  clear_at (bad_ranks E len level paths R) R = map (fun x : pair => (consistent E len level paths x, snd x)) R.
Proof.
  intros Ha. apply nth_error_ext. intros i. rewrite clear_nth, nth_error_map', existsb_rank, (all_remaining R Ha). destruct (nth_error R i) as [x|] eqn:Hx; [|reflexivity]. cbn [option_map].
  assert (Hh : fst x = true) by (unfold all_accepted in Ha; rewrite Forall_forall in Ha; apply Ha; eapply nth_error_In; exact Hx).
  rewrite Hh, negb_involutive. reflexivity.
Qed.
Lemma bad_none E len level paths R : bad_ranks E len level paths R = [] -> forall x, In x (remaining R) -> consistent E len level paths x = true.
Proof.
  intros Hb x Hx. apply In_nth_error in Hx. destruct Hx as [i Hi]. pose proof (existsb_rank E len level paths R i) as H. rewrite Hb, Hi in H. cbn in H. destruct (consistent E len level paths x); [reflexivity|discriminate].
Qed.
Lemma map_same_flags E len level paths R : all_accepted R -> (forall x, In x R -> consistent E len level paths x = true) -> map (fun x : pair => (consistent E len level paths x, snd x)) R = R.
Proof.
  induction 1 as [|[h x] R Hh HR IH]; intros Hc; [reflexivity|]. cbn [map snd]. rewrite (Hc _ (or_introl eq_refl)), IH by (intros; apply Hc; right; assumption). cbn in Hh. subst h. reflexivity.
Qed.
Lemma remaining_map_consistent E len level paths R : existsb (consistent E len level paths) R = true -> remaining (map (fun x : pair => (consistent E len level paths x, snd x)) R) <> [].
Proof.
  intros H. apply existsb_exists in H. destruct H as (x & Hx & Hc) . intros He.
  assert (Hin : In (consistent E len level paths x, snd x) (remaining (map (fun x : pair => (consistent E len level paths x, snd x)) R))).
  { apply filter_In. split; [apply in_map_iff; exists x; split; [reflexivity|exact Hx]|]. rewrite Hc. reflexivity. }
  rewrite He in Hin. exact Hin.
Qed.

Section Statements.
Variables (E : env) (len bits level : nat) (paths : list (list bool)) (R : list pair) (s0 s1 : server) (fuel : nat) (cfg : config).

Lemma search_exact : env_ok E -> at_frontier E true len bits paths (held true R) s0 -> at_frontier E false len bits paths (held false R) s1 ->
  Forall (fun x => well_formed bits (share_of true x) /\ well_formed bits (share_of false x)) R ->
  paths <> [] -> (forall p, In p paths -> length p = level) -> level < bits ->
  all_accepted R -> clog2f E (length R) = Nat.log2_up (length R) ->
  no_collision E (map (vstring E true len level paths) R) (map (vstring E false len level paths) R) ->
  cfg_hist cfg = len -> Nat.log2_up (length R) + 2 <= fuel -> existsb (consistent E len level paths) R = true ->
  exists t0 t1, run_level fuel E cfg s0 s1 (length R) = Ret (t0, t1) /\
    after_level E len bits (threshold cfg) (map (fun x : pair => (consistent E len level paths x, snd x)) R) paths t0 t1.
Proof.
  intros Hok H0 H1 Hwf Hne Hp Hl Ha Hcl Hnc Hcfg Hf Hex. pose proof (all_remaining R Ha) as Hr.
  assert (Hm : 1 <= length (remaining R)) by (rewrite Hr; destruct R; [discriminate|cbn; lia]).
  assert (Hcl' : clog2f E (length (remaining R)) = Nat.log2_up (length (remaining R))) by (rewrite Hr; exact Hcl).
  assert (Hnc' : no_collision E (map (vstring E true len level paths) (remaining R)) (map (vstring E false len level paths) (remaining R))) by (rewrite Hr; exact Hnc).
  destruct (bad_ranks E len level paths R) as [|i l] eqn:Hb.
  - rewrite map_same_flags; [|exact Ha|intros x Hx; apply (bad_none E len level paths R Hb); rewrite Hr; exact Hx].
    apply (search_none E len bits level paths R s0 s1 fuel cfg Hok H0 H1 Hwf Hne Hp Hl Hm Hcl' Hnc' Hcfg Hf Hb).
  - rewrite <- (clear_consistent E len level paths R Ha). apply (search_found E len bits level paths R s0 s1 fuel cfg Hok H0 H1 Hwf Hne Hp Hl Hm Hcl' Hnc' Hcfg Hf).
    + rewrite Hb. discriminate.
    + rewrite Hr. reflexivity.
    + rewrite (clear_consistent E len level paths R Ha). apply remaining_map_consistent. exact Hex.
Qed.

Lemma search_all_inconsistent : env_ok E -> at_frontier E true len bits paths (held true R) s0 -> at_frontier E false len bits paths (held false R) s1 ->
  Forall (fun x => well_formed bits (share_of true x) /\ well_formed bits (share_of false x)) R ->
  paths <> [] -> (forall p, In p paths -> length p = level) -> level < bits ->
  all_accepted R -> clog2f E (length R) = Nat.log2_up (length R) ->
  no_collision E (map (vstring E true len level paths) R) (map (vstring E false len level paths) R) ->
  cfg_hist cfg = len -> Nat.log2_up (length R) + 2 <= fuel -> R <> [] -> existsb (consistent E len level paths) R = false ->
  run_level fuel E cfg s0 s1 (length R) = Panic PIndex.
Proof.
  intros Hok H0 H1 Hwf Hne Hp Hl Ha Hcl Hnc Hcfg Hf HR Hex. pose proof (all_remaining R Ha) as Hr.
  assert (Hm : 1 <= length (remaining R)) by (rewrite Hr; destruct R; [contradiction|cbn; lia]).
  assert (Hcl' : clog2f E (length (remaining R)) = Nat.log2_up (length (remaining R))) by (rewrite Hr; exact Hcl).
  assert (Hnc' : no_collision E (map (vstring E true len level paths) (remaining R)) (map (vstring E false len level paths) (remaining R))) by (rewrite Hr; exact Hnc).
  assert (Hall : forall x, In x R -> consistent E len level paths x = false).
  { intros x Hx. destruct (consistent E len level paths x) eqn:Hc; [|reflexivity]. assert (existsb (consistent E len level paths) R = true) by (apply existsb_exists; eauto). congruence. }
  apply (search_all_bad E len bits level paths R s0 s1 fuel cfg Hok H0 H1 Hwf Hne Hp Hl Hm Hcl' Hnc' Hcfg Hf).
  - intros Hb. destruct R as [|x R']; [contradiction|]. pose proof (bad_none E len level paths _ Hb x) as Hc. rewrite Hr in Hc. rewrite Hall in Hc by (left; reflexivity). discriminate Hc. left. reflexivity.
  - rewrite Hr. reflexivity.
  - rewrite (clear_consistent E len level paths R Ha). clear -Hall. induction R as [|x R' IH]; [reflexivity|]. cbn [map remaining filter]. rewrite (Hall x (or_introl eq_refl)). cbn [fst].
    apply IH. intros y Hy. apply Hall. right. exact Hy.
Qed.
End Statements.

(** *** ranks *)
Definition rank (R : list pair) (a : nat) : nat := length (remaining (firstn a R)).
Lemma rank_nth R : forall a x, nth_error R a = Some x -> fst x = true -> nth_error (remaining R) (rank R a) = Some x.
Proof.
  induction R as [|y R IH]; intros a x Ha Hx; [destruct a; discriminate|]. destruct a as [|a].
  - cbn in Ha. injection Ha as ->. unfold rank, remaining. cbn [firstn filter length]. rewrite Hx. reflexivity.
  - cbn [nth_error] in Ha. specialize (IH a x Ha Hx). unfold rank, remaining in *. cbn [firstn filter]. destruct (fst y); [exact IH|exact IH].
Qed.
Lemma rank_mono R : forall a b x, a < b -> nth_error R a = Some x -> fst x = true -> rank R a < rank R b.
Proof.
  induction R as [|y R IH]; intros a b x Hab Ha Hx; [destruct a; discriminate|]. destruct b as [|b]; [lia|]. destruct a as [|a].
  - cbn in Ha. injection Ha as ->. unfold rank, remaining. cbn [firstn filter length]. rewrite Hx. cbn [length]. lia.
  - cbn [nth_error] in Ha. specialize (IH a b x ltac:(lia) Ha Hx). unfold rank, remaining in *. cbn [firstn filter]. destruct (fst y); cbn [length]; lia.
Qed.
Lemma rank_le R : forall a, rank R a <= a.
Proof. intros a. unfold rank. pose proof (remaining_le (firstn a R)). pose proof (firstn_le_length a R). lia. Qed.
Lemma rank_lt R : forall a b x, b < a -> nth_error R b = Some x -> fst x = false -> rank R a < a.
Proof.
  induction R as [|y R IH]; intros a b x Hb Hx Hf; [destruct b; discriminate|]. destruct a as [|a]; [lia|]. unfold rank, remaining in *. cbn [firstn filter]. destruct b as [|b].
  - cbn in Hx. injection Hx as ->. rewrite Hf. pose proof (rank_le R a) as H. unfold rank, remaining in H. lia.
  - cbn [nth_error] in Hx. specialize (IH a b x ltac:(lia) Hx Hf). destruct (fst y); cbn [length]; lia.
Qed.
Lemma rank_surj R : forall r x, nth_error (remaining R) r = Some x -> exists a, nth_error R a = Some x /\ fst x = true /\ rank R a = r.
Proof.
  induction R as [|y R IH]; intros r x Hr; [destruct r; discriminate|]. unfold remaining in Hr. cbn [filter] in Hr. destruct (fst y) eqn:Hy.
  - destruct r as [|r].
    + cbn in Hr. injection Hr as <-. exists 0. split; [reflexivity|]. split; [exact Hy|reflexivity].
    + cbn [nth_error] in Hr. destruct (IH r x Hr) as (a & Ha & Hx & Hk). exists (S a). split; [exact Ha|]. split; [exact Hx|]. unfold rank, remaining in *. cbn [firstn filter]. rewrite Hy. cbn [length]. lia.
  - destruct (IH r x Hr) as (a & Ha & Hx & Hk). exists (S a). split; [exact Ha|]. split; [exact Hx|]. unfold rank, remaining in *. cbn [firstn filter]. rewrite Hy. exact Hk.
Qed.
(** the last inconsistent report stays when an earlier one was rejected *)
Lemma last_bad_stays E len level paths R a x b y : nth_error R a = Some x -> fst x = true -> consistent E len level paths x = false ->
  (forall j z, a < j -> nth_error R j = Some z -> fst z = true -> consistent E len level paths z = true) ->
  b < a -> nth_error R b = Some y -> fst y = false -> nth_error (clear_at (bad_ranks E len level paths R) R) a = Some x.
Proof.
  intros Ha Hx Hc Hlast Hb Hy Hf. pose proof (clear_nth (bad_ranks E len level paths R) R a) as Hcl. unfold pair in *. rewrite Ha in Hcl. cbn [option_map] in Hcl. rewrite existsb_rank in Hcl. etransitivity; [exact Hcl|]. clear Hcl.
  assert (Hn : match nth_error (remaining R) a with Some z => negb (consistent E len level paths z) | None => false end = false).
  { destruct (nth_error (remaining R) a) as [z|] eqn:Hz; [|reflexivity]. destruct (rank_surj R a z Hz) as (j & Hj & Hzt & Hrk).
    rewrite (Hlast j z); [reflexivity| |exact Hj|exact Hzt]. pose proof (rank_lt R a b y Hb Hy Hf) as Hlt.
    destruct (Nat.lt_trichotomy j a) as [Hja|[->|Hja]]; [|lia|exact Hja]. pose proof (rank_mono R j a z Hja Hj Hzt). lia. }
  rewrite Hn. cbn [negb]. rewrite andb_true_r. destruct x; reflexivity.
Qed.

(** *** the statements of PropSearch *)
Section Final.
Variables (E : env) (len bits level : nat) (paths : list (list bool)) (R : list pair) (s0 s1 : server) (fuel : nat) (cfg : config).
Hypothesis Hok : env_ok E.
Hypothesis Hs : level_start E len bits level paths R s0 s1.
Hypothesis Hh : hashes_fine E len level paths R.
Hypothesis Hcfg : cfg_hist cfg = len.
Hypothesis Hfuel : Nat.log2_up (length R) + 2 <= fuel.
Notation bad := (bad_ranks E len level paths R).

Lemma p_exact : all_accepted R -> existsb (consistent E len level paths) R = true ->
  exists t0 t1, run_level fuel E cfg s0 s1 (length R) = Ret (t0, t1) /\
    after_level E len bits (threshold cfg) (map (fun x : pair => (consistent E len level paths x, snd x)) R) paths t0 t1.
Proof.
  intros Ha He. destruct Hs as (A & B & C & D & F & G). destruct Hh as [I J]. rewrite (all_remaining R Ha) in I, J.
  apply (search_exact E len bits level paths R s0 s1 fuel cfg); assumption.
Qed.
Lemma p_all_bad : all_accepted R -> R <> [] -> existsb (consistent E len level paths) R = false -> run_level fuel E cfg s0 s1 (length R) = Panic PIndex.
Proof.
  intros Ha Hr He. destruct Hs as (A & B & C & D & F & G). destruct Hh as [I J]. rewrite (all_remaining R Ha) in I, J.
  apply (search_all_inconsistent E len bits level paths R s0 s1 fuel cfg); assumption.
Qed.
Lemma p_none : 1 <= length (remaining R) -> (forall x, In x R -> fst x = true -> consistent E len level paths x = true) ->
  exists t0 t1, run_level fuel E cfg s0 s1 (length R) = Ret (t0, t1) /\ after_level E len bits (threshold cfg) R paths t0 t1.
Proof.
  intros Hm Hc. destruct Hs as (A & B & C & D & F & G). destruct Hh as [I J]. apply (search_none E len bits level paths R s0 s1 fuel cfg); try assumption.
  destruct bad as [|i l] eqn:Hb; [reflexivity|]. exfalso. assert (Hi : In i bad) by (rewrite Hb; left; reflexivity). unfold bad_ranks in Hi. apply filter_In in Hi. destruct Hi as [_ Hi].
  destruct (nth_error (remaining R) i) as [x|] eqn:Hx; [|discriminate]. apply nth_error_In in Hx. apply filter_In in Hx. rewrite Hc in Hi by apply Hx. discriminate.
Qed.
Lemma p_effect : bad <> [] -> Nat.log2_up (length R) = Nat.log2_up (length (remaining R)) -> remaining (clear_at bad R) <> [] ->
  exists t0 t1, run_level fuel E cfg s0 s1 (length R) = Ret (t0, t1) /\ after_level E len bits (threshold cfg) (clear_at bad R) paths t0 t1.
Proof.
  intros Hb Hn Hr. destruct Hs as (A & B & C & D & F & G). destruct Hh as [I J]. apply (search_found E len bits level paths R s0 s1 fuel cfg); try assumption.
  destruct (remaining R) eqn:Hm; [|cbn; lia]. exfalso. apply Hb. unfold bad_ranks. rewrite Hm. reflexivity.
Qed.
Lemma p_shrunk x : In x R -> fst x = true -> consistent E len level paths x = false -> Nat.log2_up (length (remaining R)) < Nat.log2_up (length R) ->
  run_level fuel E cfg s0 s1 (length R) = Panic PArith.
Proof.
  intros Hx Hf Hc Hn. destruct Hs as (A & B & C & D & F & G). destruct Hh as [I J].
  assert (Hin : In x (remaining R)) by (apply filter_In; split; assumption).
  apply (search_shrunk E len bits level paths R s0 s1 fuel cfg); try assumption.
  - destruct (remaining R); [destruct Hin|cbn; lia].
  - intros Hb. pose proof (bad_none E len level paths R Hb x Hin) as H. congruence.
Qed.
Lemma p_emptied : bad <> [] -> Nat.log2_up (length R) = Nat.log2_up (length (remaining R)) -> remaining (clear_at bad R) = [] ->
  run_level fuel E cfg s0 s1 (length R) = Panic PIndex.
Proof.
  intros Hb Hn Hr. destruct Hs as (A & B & C & D & F & G). destruct Hh as [I J]. apply (search_all_bad E len bits level paths R s0 s1 fuel cfg); try assumption.
  destruct (remaining R) eqn:Hm; [|cbn; lia]. exfalso. apply Hb. unfold bad_ranks. rewrite Hm. reflexivity.
Qed.

(** *** wrong reports removed *)
Lemma held_flag first P i x : nth_error P i = Some x -> nth_error (held first P) i = Some (fst x, share_of first x).
Proof. intros H. unfold held. rewrite nth_error_map'. unfold pair in *. rewrite H. reflexivity. Qed.
Lemma after_flags P t0 t1 i x : after_level E len bits (threshold cfg) P paths t0 t1 -> nth_error P i = Some x ->
  nth_error (map fst (c_reports (s_coll t0))) i = Some (fst x) /\ nth_error (map fst (c_reports (s_coll t1))) i = Some (fst x).
Proof.
  intros (A & B & _) Hx. destruct A as (_ & _ & _ & _ & A & _). destruct B as (_ & _ & _ & _ & B & _). rewrite A, B, !nth_error_map'.
  rewrite (held_flag true _ _ _ Hx), (held_flag false _ _ _ Hx). split; reflexivity.
Qed.
Lemma clear_some is P i x : nth_error P i = Some x -> nth_error (clear_at is P) i = Some (fst x && negb (existsb (Nat.eqb i) is), snd x).
Proof. intros H. pose proof (clear_nth is P i) as Hc. unfold pair in *. rewrite H in Hc. exact Hc. Qed.
(** the report x at position i is consistent; position i is the rank of an inconsistent report y *)
Lemma p_removed i x j y t0 t1 : nth_error R i = Some x -> nth_error R j = Some y -> fst y = true -> consistent E len level paths y = false ->
  length (remaining (firstn j R)) = i -> run_level fuel E cfg s0 s1 (length R) = Ret (t0, t1) ->
  nth_error (map fst (c_reports (s_coll t0))) i = Some false /\ nth_error (map fst (c_reports (s_coll t1))) i = Some false.
Proof.
  intros Hx Hy Hf Hc Hi Hr. pose proof (rank_nth R j y Hy Hf) as Hk. unfold rank in Hk. rewrite Hi in Hk.
  assert (Hm : existsb (Nat.eqb i) bad = true) by (rewrite existsb_rank, Hk, Hc; reflexivity).
  assert (Hb : bad <> []) by (intros Hb; rewrite Hb in Hm; discriminate).
  destruct (Nat.eq_dec (Nat.log2_up (length R)) (Nat.log2_up (length (remaining R)))) as [Hn|Hn].
  - destruct (remaining (clear_at bad R)) eqn:Hre.
    + rewrite (p_emptied Hb Hn Hre) in Hr. discriminate.
    + destruct (p_effect Hb Hn) as (u0 & u1 & Hu & Ha); [rewrite Hre; discriminate|]. rewrite Hu in Hr. injection Hr as <- <-.
      destruct (after_flags _ _ _ _ _ Ha (clear_some _ _ _ _ Hx)) as [P Q]. cbn [fst] in P, Q. rewrite Hm in P, Q. cbn [negb] in P, Q. rewrite andb_false_r in P, Q. split; assumption.
  - rewrite (p_shrunk y) in Hr; [discriminate| |exact Hf|exact Hc|].
    + eapply nth_error_In. exact Hy.
    + pose proof (Nat.log2_up_le_mono _ _ (remaining_le R)). lia.
Qed.
Lemma p_stays a x b y t0 t1 : nth_error R a = Some x -> fst x = true -> consistent E len level paths x = false ->
  (forall j z, a < j -> nth_error R j = Some z -> fst z = true -> consistent E len level paths z = true) ->
  b < a -> nth_error R b = Some y -> fst y = false -> run_level fuel E cfg s0 s1 (length R) = Ret (t0, t1) ->
  nth_error (map fst (c_reports (s_coll t0))) a = Some true /\ nth_error (map fst (c_reports (s_coll t1))) a = Some true.
Proof.
  intros Hx Hf Hc Hl Hb Hy Hg Hr. pose proof (last_bad_stays E len level paths R a x b y Hx Hf Hc Hl Hb Hy Hg) as Hs'.
  assert (Hin : In x (remaining R)) by (apply filter_In; split; [eapply nth_error_In; exact Hx|exact Hf]).
  assert (Hbad : bad <> []) by (intros Hn; pose proof (bad_none E len level paths R Hn x Hin); congruence).
  destruct (Nat.eq_dec (Nat.log2_up (length R)) (Nat.log2_up (length (remaining R)))) as [Hn|Hn].
  - destruct (remaining (clear_at bad R)) eqn:Hre.
    + rewrite (p_emptied Hbad Hn Hre) in Hr. discriminate.
    + destruct (p_effect Hbad Hn) as (u0 & u1 & Hu & Ha); [rewrite Hre; discriminate|]. rewrite Hu in Hr. injection Hr as <- <-.
      destruct (after_flags _ _ _ _ _ Ha Hs') as [P Q]. rewrite Hf in P, Q. split; assumption.
  - rewrite (p_shrunk x) in Hr; [discriminate| |exact Hf|exact Hc|].
    + eapply nth_error_In. exact Hx.
    + pose proof (Nat.log2_up_le_mono _ _ (remaining_le R)). lia.
Qed.
(** what holds: without earlier rejections no consistent report is removed *)
Lemma p_kept i x t0 t1 : all_accepted R -> nth_error R i = Some x -> consistent E len level paths x = true -> run_level fuel E cfg s0 s1 (length R) = Ret (t0, t1) ->
  nth_error (map fst (c_reports (s_coll t0))) i = Some true /\ nth_error (map fst (c_reports (s_coll t1))) i = Some true.
Proof.
  intros Ha Hx Hc Hr. destruct p_exact as (u0 & u1 & Hu & Hf); [exact Ha|apply existsb_exists; exists x; split; [eapply nth_error_In; exact Hx|exact Hc]|].
  rewrite Hu in Hr. injection Hr as <- <-.
  assert (Hm : nth_error (map (fun x : pair => (consistent E len level paths x, snd x)) R) i = Some (true, snd x)) by (rewrite nth_error_map'; unfold pair in *; rewrite Hx; cbn; rewrite Hc; reflexivity).
  apply (after_flags _ _ _ _ _ Hf Hm).
Qed.
End Final.
