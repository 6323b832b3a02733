(** Proofs for C82. *)
From Verif Require Import Base BaseFacts Field Util UtilFacts Env Prg PrgFacts PrgSpecFacts2 Vidpf SpecVidpf SpecTree VidpfFacts VidpfEvalFacts VidpfTreeFacts VidpfTreeFacts3 VidpfTreeFacts4
  Merkle Collect Server Driver SpecCollect SpecServer SpecDriver SpecCheck SpecLevel SpecWhh CollectFacts CollectInv ServerFacts DriverFacts DriverPropFacts RefuteFacts MerkleFacts LevelFacts PairFacts WhhFacts WhhFacts2 FlpFacts WhhFacts3 WhhMain
  SpecPrg Sched SpecSched SchedFacts SchedRun System SpecSystem SystemFacts SpecView.
From Coq Require Import Lia.

(** *** requests and results *)
Lemma asked_bind E A B (p : proc A) (f : A -> proc B) : forall s0 s1,
  asked E (pbind p f) s0 s1 = asked E p s0 s1 ++ match interp E p s0 s1 with Ret (t0, t1, a) => asked E (f a) t0 t1 | Panic _ => [] end.
Proof.
  induction p as [o|C t k IH|q0 q1 k IH]; intros s0 s1; cbn [pbind interp asked].
  - destruct o; reflexivity.
  - destruct (alone E t) as [c|e]; cbn [bind]; [apply IH|reflexivity].
  - unfold call2. cbn [app]. f_equal. destruct (handle E s0 q0) as [t0 [r0|e0]]; cbn [bind]; [|destruct (handle E s1 q1); reflexivity].
    destruct (handle E s1 q1) as [t1 [r1|e1]]; cbn [bind]; [apply IH|reflexivity].
Qed.
Lemma asked_pure E A B (o : outcome A) (f : A -> proc B) s0 s1 : asked E (pbind (PDone o) f) s0 s1 = match o with Ret a => asked E (f a) s0 s1 | Panic _ => [] end.
Proof. destruct o; reflexivity. Qed.
Lemma asked_unit E B (p : proc unit) (f : unit -> proc B) s0 s1 o : interp E p s0 s1 = unit_of o ->
  asked E (pbind p f) s0 s1 = asked E p s0 s1 ++ match o with Ret (t0, t1) => asked E (f tt) t0 t1 | Panic _ => [] end.
Proof. intros H. rewrite asked_bind, H. destruct o as [[t0 t1]|e]; reflexivity. Qed.
Lemma asked_one E q0 q1 s0 s1 : asked E (ask_done q0 q1) s0 s1 = [(q0, q1)].
Proof. unfold ask_done. cbn [asked]. destruct (handle E s0 q0) as [t0 [r0|e0]], (handle E s1 q1) as [t1 [r1|e1]]; reflexivity. Qed.

(** the final state of each aggregator is what its requests make of its first state *)
Lemma asked_state E A (p : proc A) : forall s0 s1 t0 t1 a, interp E p s0 s1 = Ret (t0, t1, a) ->
  fst (handle_all E s0 (map fst (asked E p s0 s1))) = t0 /\ fst (handle_all E s1 (map snd (asked E p s0 s1))) = t1.
Proof.
  induction p as [o|C t k IH|q0 q1 k IH]; intros s0 s1 t0 t1 a H; cbn [interp asked] in *.
  - destruct o; cbn [bind] in H; [injection H as <- <- <-; split; reflexivity|discriminate].
  - destruct (alone E t) as [c|e]; cbn [bind] in H; [apply (IH _ _ _ _ _ _ H)|discriminate].
  - unfold call2 in H. cbn [map fst snd handle_all]. destruct (handle E s0 q0) as [u0 [r0|e0]]; [|cbn [bind] in H; destruct (handle E s1 q1); discriminate].
    destruct (handle E s1 q1) as [u1 [r1|e1]]; cbn [bind] in H; [|discriminate]. specialize (IH _ _ _ _ _ _ _ H) as [I0 I1].
    destruct (handle_all E u0 _) as [x0 l0]. destruct (handle_all E u1 _) as [x1 l1]. split; assumption.
Qed.

(** *** batches *)
Definition from_bounds (n b start : nat) : list (nat * nat) := map (fun k => (start + k * b, Nat.min n (start + k * b + b))) (seq 0 ((n - start + (b - 1)) / b)).
Lemma from_zero n b : from_bounds n b 0 = bounds n b.
Proof. unfold from_bounds, bounds. rewrite Nat.sub_0_r. reflexivity. Qed.
Lemma from_end n b start : 0 < b -> n <= start -> from_bounds n b start = [].
Proof. intros Hb H. unfold from_bounds. replace (n - start) with 0 by lia. rewrite Nat.div_small by lia. reflexivity. Qed.
Lemma from_step n b start : 0 < b -> start < n -> from_bounds n b start = (start, Nat.min n (start + b)) :: from_bounds n b (start + b).
Proof.
  intros Hb H. unfold from_bounds. replace ((n - start + (b - 1)) / b) with (S ((n - (start + b) + (b - 1)) / b)).
  - cbn [seq map]. f_equal; [f_equal; [lia|f_equal; lia]|]. rewrite <- seq_shift, map_map. apply map_ext. intros k. f_equal; [lia|f_equal; lia].
  - destruct (Nat.le_gt_cases (start + b) n).
    + replace (n - start + (b - 1)) with (n - (start + b) + (b - 1) + 1 * b) by lia. rewrite Nat.div_add by lia. lia.
    + replace (n - (start + b)) with 0 by lia. rewrite (Nat.div_small (0 + _)) by lia. replace (n - start + (b - 1)) with (n - start - 1 + 1 * b) by lia. rewrite Nat.div_add by lia. rewrite Nat.div_small by lia. reflexivity.
Qed.

Lemma flp_asked E cfg n : 0 < cfg_query_batch cfg -> forall fuel start keep s0 s1 x, interp E (flp_loop_p fuel E cfg n start keep) s0 s1 = Ret x ->
  asked E (flp_loop_p fuel E cfg n start keep) s0 s1 = map both (map (fun r => QRunFlpQueries (fst r) (snd r)) (from_bounds n (cfg_query_batch cfg) start)).
Proof.
  intros Hb. induction fuel as [|fuel IH]; intros start keep s0 s1 x H; cbn [flp_loop_p] in *; destruct (start <? n) eqn:Hlt; try discriminate;
    try (apply Nat.ltb_ge in Hlt; rewrite from_end by lia; reflexivity).
  apply Nat.ltb_lt in Hlt. rewrite from_step by assumption. cbv zeta in *. cbn [asked interp map fst snd] in *. f_equal. unfold call2 in H.
  destruct (handle E s0 _) as [t0 [r0|e0]]; [|cbn [bind] in H; destruct (handle E s1 _); discriminate].
  destruct (handle E s1 _) as [t1 [r1|e1]]; cbn [bind] in H; [|discriminate].
  destruct r0; try discriminate. destruct r1; try discriminate. rewrite interp_pure in H. rewrite asked_pure. destruct (debug_assert _ _); cbn [bind] in H; [|discriminate].
  rewrite interp_pure in H. rewrite asked_pure. destruct (mapM _ _) as [ks|]; cbn [bind] in H; [|discriminate]. apply (IH _ _ _ _ _ H).
Qed.
Lemma proofs_asked E cfg n : 0 < cfg_query_batch cfg -> forall fuel start s0 s1 x, interp E (proofs_loop_p fuel cfg n start) s0 s1 = Ret x ->
  asked E (proofs_loop_p fuel cfg n start) s0 s1 = map both (map (fun r => QGetProofs (fst r) (snd r)) (from_bounds n (cfg_query_batch cfg) start)).
Proof.
  intros Hb. induction fuel as [|fuel IH]; intros start s0 s1 x H; cbn [proofs_loop_p] in *; destruct (start <? n) eqn:Hlt; try discriminate;
    try (apply Nat.ltb_ge in Hlt; rewrite from_end by lia; reflexivity).
  apply Nat.ltb_lt in Hlt. rewrite from_step by assumption. cbv zeta in *. cbn [asked interp map fst snd] in *. f_equal. unfold call2 in H.
  destruct (handle E s0 _) as [t0 [r0|e0]]; [|cbn [bind] in H; destruct (handle E s1 _); discriminate].
  destruct (handle E s1 _) as [t1 [r1|e1]]; cbn [bind] in H; [|discriminate].
  destruct r0; try discriminate. destruct r1; try discriminate. rewrite interp_pure in H. rewrite asked_pure. destruct (assert_ _); cbn [bind] in H; [|discriminate].
  rewrite interp_pure in H. rewrite asked_pure. destruct (assert_ _); cbn [bind] in H; [|discriminate]. apply (IH _ _ _ _ H).
Qed.

Lemma prefixes_frontier thr L l : prefixes (heavy thr L) l = frontier_at thr L l.
Proof. destruct l; reflexivity. Qed.

Section View.
Variable E : env.
Hypothesis Hok : env_ok E.
Variables (len bits : nat) (L : list entry).
Hypothesis Hgood : Forall (good_entry E len bits) L.
Hypothesis Hn : (Z.of_nat (length L) < 2 ^ 64)%Z.
Variable cfg : config.
Hypothesis Hcfg : cfg_hist cfg = len.
Notation thr := (threshold cfg).
Notation h := (heavy (threshold cfg) L).

(** *** one level; the crawl is answered with equal roots *)
Lemma level_asked fuel n paths level s0 s1 : pair_inv E len bits L paths s0 s1 -> paths <> [] -> (forall p, In p paths -> length p = level) -> level < bits ->
  existsb e_ok L = true -> 1 <= fuel -> asked E (run_level_p fuel cfg n) s0 s1 = map both [QTreeCrawl 1 [] false; QTreePrune (map h (children paths))].
Proof.
  intros [H0 H1] Hne Hp Hl Hex Hfuel. destruct fuel as [|fuel]; [lia|].
  assert (Hd0 : forall p, length p <= bits -> defined_at E len (held0 L) p) by (intros p Hpl; apply (good_defined E Hok len bits L Hgood p Hpl)).
  assert (Hd1 : forall p, length p <= bits -> defined_at E len (held1 L) p) by (intros p Hpl; apply (good_defined E Hok len bits L Hgood p Hpl)).
  pose proof (strings_equal E Hok len bits L Hgood level paths Hp Hl) as Hstr.
  pose proof (strings_nonempty E len L true level paths e_r0 Hex) as Hsne. fold (held0 L) in Hsne.
  assert (Hm : exists root, merkle_part E (strings_of E true len level paths (held0 L)) 1 [] false = Ret ([root], [0])).
  { rewrite merkle_one by exact Hsne. set (hs := strings_of E true len level paths (held0 L)) in *.
    destruct (merkle_root_some E (firstn (2 ^ clog2f E (length hs)) hs)) as [root Hr].
    - pose proof (pow2_ge1 (clog2f E (length hs))). destruct (2 ^ clog2f E (length hs)); [lia|]. destruct hs; [contradiction|discriminate].
    - rewrite Hr. cbn [unwrap bind]. eauto. }
  destruct Hm as [root Hm0]. pose proof Hm0 as Hm1. rewrite Hstr in Hm1.
  pose proof (handle_crawl E len bits L true (held0 L) paths level s0 _ 1 H0 Hne Hp Hd0 Hl Hm0) as HC0.
  pose proof (handle_crawl E len bits L false (held1 L) paths level s1 _ 1 H1 Hne Hp Hd1 Hl Hm1) as HC1.
  cbn [fst snd] in HC0, HC1.
  assert (HK : keep_values (cfg_hist cfg) thr (map tn_value (map (mknode E len (held0 L)) (children paths))) (map tn_value (map (mknode E len (held1 L)) (children paths))) = Ret (map h (children paths))).
  { rewrite Hcfg. apply (keep_heavy E Hok len bits L Hgood Hn). intros q Hq. apply children_in in Hq. destruct Hq as (p & d & Hin & ->). split; [destruct p; discriminate|]. rewrite app_length, (Hp _ Hin). cbn. lia. }
  unfold run_level_p. rewrite asked_bind. cbn [level_loop_p]. cbv zeta. cbn [asked interp].
  rewrite (proj2 (call2_ret _ _ _ _ _ _ _ _ _) (conj HC0 HC1)), HC0, HC1. cbn [bind]. rewrite asked_pure, interp_pure.
  rewrite (proj2 (assert_true _)) by (rewrite !map_length; apply Nat.eqb_refl). cbn [bind]. rewrite asked_pure, interp_pure, HK. cbn [bind length Nat.eqb].
  rewrite asked_pure, interp_pure. cbn [bind length mismatches seq foldM index nth_error]. rewrite bytes_eqb_refl. cbn [bind asked interp app map].
  rewrite asked_one. reflexivity.
Qed.

Lemma descent_next l levels : flat_map (fun l => [QTreeCrawl 1 [] false; QTreePrune (map h (children (prefixes h l)))]) (seq l (S levels)) =
  [QTreeCrawl 1 [] false; QTreePrune (map h (children (frontier_at thr L l)))] ++ flat_map (fun l => [QTreeCrawl 1 [] false; QTreePrune (map h (children (prefixes h l)))]) (seq (S l) levels).
Proof. cbn [seq flat_map]. rewrite prefixes_frontier. reflexivity. Qed.

Lemma levels_asked fuel n : 1 <= fuel -> existsb e_ok L = true -> forall k level s0 s1, pair_inv E len bits L (frontier_at thr L level) s0 s1 -> level + k <= bits ->
  (forall l, level <= l < level + k -> frontier_at thr L l <> []) ->
  asked E (levels_loop_p fuel E cfg n false k) s0 s1 = map both (flat_map (fun l => [QTreeCrawl 1 [] false; QTreePrune (map h (children (prefixes h l)))]) (seq level k)).
Proof.
  intros Hf Hex. induction k as [|k IH]; intros level s0 s1 Hi Hk Hne; [reflexivity|]. rewrite descent_next, map_app. cbn [levels_loop_p].
  rewrite asked_pure.
  destruct (level_step E Hok len bits L Hgood Hn fuel cfg n (frontier_at thr L level) level s0 s1 Hi) as (t0 & t1 & Hr & Hi'); try assumption;
    [apply Hne; lia|apply frontier_length|lia|].
  rewrite (asked_unit _ _ _ _ _ _ _ (interp_level _ _ _ _ _ _)), Hr. rewrite frontier_next in Hi'.
  rewrite (level_asked fuel n (frontier_at thr L level) level s0 s1 Hi (Hne level ltac:(lia)) (frontier_length thr L level)) by (assumption || lia).
  f_equal. apply IH; [exact Hi'|lia|intros; apply Hne; lia].
Qed.

Lemma levels_asked_empty fuel n : 1 <= fuel -> existsb e_ok L = true -> forall k m level s0 s1, pair_inv E len bits L (frontier_at thr L level) s0 s1 -> level + k <= bits -> m < k ->
  (forall l, level <= l < level + m -> frontier_at thr L l <> []) -> frontier_at thr L (level + m) = [] ->
  asked E (levels_loop_p fuel E cfg n false k) s0 s1 = map both (flat_map (fun l => [QTreeCrawl 1 [] false; QTreePrune (map h (children (prefixes h l)))]) (seq level m) ++ [QTreeCrawl 1 [] false]).
Proof.
  intros Hf Hex. induction k as [|k IH]; intros m level s0 s1 Hi Hk Hmk Hne He; [lia|]. cbn [levels_loop_p]. rewrite asked_pure.
  rewrite (asked_unit _ _ _ _ _ _ _ (interp_level _ _ _ _ _ _)). destruct m as [|m].
  - rewrite Nat.add_0_r in He. rewrite He in Hi. destruct Hi as [(P0 & _ & _ & _ & _ & F0) _]. apply fronts_nil in F0.
    pose proof (empty_frontier_level fuel E cfg s0 s1 n P0 F0 Hf) as Hp. rewrite Hp, app_nil_r. cbn [seq flat_map app map].
    unfold run_level_p. rewrite asked_bind. destruct fuel as [|fuel]; [lia|]. cbn [level_loop_p]. cbv zeta. cbn [asked interp].
    unfold call2. rewrite (empty_frontier_crawl E s0 1 false P0 F0). destruct (handle E s1 _) as [t1 a1]. reflexivity.
  - rewrite descent_next, <- app_assoc, map_app.
    destruct (level_step E Hok len bits L Hgood Hn fuel cfg n (frontier_at thr L level) level s0 s1 Hi) as (t0 & t1 & Hr & Hi'); try assumption;
      [apply Hne; lia|apply frontier_length|lia|].
    rewrite Hr. rewrite frontier_next in Hi'.
    rewrite (level_asked fuel n (frontier_at thr L level) level s0 s1 Hi (Hne level ltac:(lia)) (frontier_length thr L level)) by (assumption || lia).
    f_equal. apply IH; [exact Hi'|lia|lia|intros; apply Hne; lia|]. replace (S level + m) with (level + S m) by lia. exact He.
Qed.

Hypothesis Hbatch : 0 < cfg_query_batch cfg.
Lemma last_asked fuel n paths s0 s1 : pair_inv E len bits L paths s0 s1 -> n <= fuel -> (forall p, In p paths -> length p < bits) ->
  asked E (run_level_last_p fuel cfg n) s0 s1 =
  map both (QTreeCrawlLast :: map (fun r => QGetProofs (fst r) (snd r)) (bounds n (cfg_query_batch cfg)) ++ [QTreePrune (map h (children paths)); QFinalShares]).
Proof.
  intros [H0 H1] Hf Hp.
  assert (Hd0 : forall p, length p <= bits -> defined_at E len (held0 L) p) by (intros p Hpl; apply (good_defined E Hok len bits L Hgood p Hpl)).
  assert (Hd1 : forall p, length p <= bits -> defined_at E len (held1 L) p) by (intros p Hpl; apply (good_defined E Hok len bits L Hgood p Hpl)).
  assert (Hch : forall q, In q (children paths) -> q <> [] /\ length q <= bits).
  { intros q Hq. apply children_in in Hq. destruct Hq as (p & d & Hin & ->). split; [destruct p; discriminate|]. specialize (Hp _ Hin). rewrite app_length. cbn. lia. }
  destruct (handle_last E len bits L cfg Hcfg _ _ _ _ H0 Hp Hd0) as (a0 & HA0 & HS0 & HF0 & HL0). destruct (handle_last E len bits L cfg Hcfg _ _ _ _ H1 Hp Hd1) as (a1 & HA1 & HS1 & HF1 & HL1).
  destruct (handle_prune E len bits _ _ _ _ h HS0 HF0) as (t0 & HP0 & HT0 & _ & _).
  destruct (handle_prune E len bits _ _ _ _ h HS1 HF1) as (t1 & HP1 & HT1 & _ & _).
  unfold run_level_last_p. cbn [asked map]. rewrite HA0, HA1. f_equal. rewrite asked_pure.
  rewrite (proj2 (assert_true _)) by (rewrite !map_length; apply Nat.eqb_refl). rewrite asked_pure, Hcfg, (keep_heavy E Hok len bits L Hgood Hn) by exact Hch.
  assert (HQ : interp E (proofs_loop_p fuel cfg n 0) a0 a1 = unit_of (Ret (a0, a1))).
  { rewrite interp_proofs, proofs_loop_equal; [reflexivity|exact Hbatch|apply HS0|apply HS1| |lia]. rewrite HL0, HL1. apply (finals_equal E Hok len bits L Hgood). exact Hch. }
  rewrite (asked_unit _ _ _ _ _ _ _ HQ), map_app. f_equal; [rewrite (proofs_asked E cfg n Hbatch _ _ _ _ _ HQ), from_zero; reflexivity|].
  rewrite (asked_unit _ _ _ _ _ _ _ (interp_ask E _ _ _ _)), asked_one, (proj2 (call2_done_ret _ _ _ _ _ t0 t1)) by eauto. cbn [app asked map]. unfold both at 1. f_equal.
  assert (Hfin : forall t, s_poison t = false -> handle E t QFinalShares = (t, Ret (AFinal (final_shares (s_coll t))))).
  { intros t Ht. apply handle_ret. split; [reflexivity|]. split; [exact Ht|]. eexists. split; [reflexivity|]. symmetry. apply set_coll_id. }
  rewrite (Hfin t0 (proj1 HT0)), (Hfin t1 (proj1 HT1)). reflexivity.
Qed.

Variable vk : bytes.
Lemma verdicts_known fuel s0 s1 : side E len bits true (allowed L e_r0) [[]] s0 -> side E len bits false (allowed L e_r1) [[]] s1 ->
  c_vk (s_coll s0) = vk -> c_vk (s_coll s1) = vk -> length L <= fuel -> 1 <= bits ->
  Forall (fun e => report_verdict E len vk (e_r0 e) (e_r1 e) (e_ok e)) L -> flp_loop fuel E cfg s0 s1 (length L) 0 [] = Ret (s0, s1, map e_ok L).
Proof.
  intros S0 S1 V0 V1 Hf Hb1 Hv.
  assert (Hd : forall p, length p <= 1 -> defined_at E len (allowed L e_r0) p /\ defined_at E len (allowed L e_r1) p) by (intros p Hp; apply (allowed_defined E Hok len bits L Hgood); lia).
  destruct (side_root E len bits L Hgood _ _ _ S0 (proj1 (Hd [] ltac:(cbn; lia)))) as [A0 R0]. destruct (side_root E len bits L Hgood _ _ _ S1 (proj2 (Hd [] ltac:(cbn; lia)))) as [A1 R1].
  unfold allowed in R0, R1. rewrite map_length in R0, R1.
  apply (flp_decisions fuel E cfg s0 s1 (length L) s0 s1 (map e_ok L)); [exact Hbatch|exact Hf|apply S0|apply S1|exact R0|exact R1|].
  split; [reflexivity|]. split; [reflexivity|]. split; [apply map_length|]. intros i b Hi.
  rewrite nth_error_map' in Hi. destruct (nth_error L i) as [e|] eqn:He; [|discriminate]. injection Hi as <-. rewrite Hcfg.
  destruct S0 as (P0 & I0 & L0 & D0 & Q0 & F0). destruct S1 as (P1 & I1 & L1 & D1 & Q1 & F1).
  apply (verdict_iff E (s_coll s0) (s_coll s1) len i true true (e_r0 e) (e_r1 e)); try assumption.
  - congruence.
  - intros p Hp. rewrite Q0, Q1. apply Hd. lia.
  - rewrite Q0. unfold allowed. rewrite nth_error_map', He. reflexivity.
  - rewrite Q1. unfold allowed. rewrite nth_error_map', He. reflexivity.
  - rewrite V0. rewrite Forall_forall in Hv. apply Hv. eapply nth_error_In; eassumption.
Qed.
Lemma checks_asked fuel s0 s1 : side E len bits true (allowed L e_r0) [[]] s0 -> side E len bits false (allowed L e_r1) [[]] s1 ->
  c_vk (s_coll s0) = vk -> c_vk (s_coll s1) = vk -> length L <= fuel -> 1 <= bits ->
  Forall (fun e => report_verdict E len vk (e_r0 e) (e_r1 e) (e_ok e)) L ->
  asked E (flp_queries_p fuel E cfg (length L)) s0 s1 = map both (checked (cfg_query_batch cfg) (map e_ok L)).
Proof.
  intros S0 S1 V0 V1 Hf Hb Hv. pose proof (verdicts_known fuel s0 s1 S0 S1 V0 V1 Hf Hb Hv) as Hl.
  unfold flp_queries_p, checked. rewrite asked_bind, interp_flp_loop, Hl, asked_one, map_app, map_length.
  f_equal. rewrite (flp_asked E cfg (length L) Hbatch fuel 0 [] s0 s1 (s0, s1, map e_ok L)), from_zero by (rewrite interp_flp_loop; exact Hl). reflexivity.
Qed.

(** *** the whole run *)
Lemma init_asked s0 s1 : uploaded true len bits vk (map e_r0 L) s0 -> uploaded false len bits vk (map e_r1 L) s1 ->
  exists i0 i1, (side E len bits true (allowed L e_r0) [[]] i0 /\ c_vk (s_coll i0) = vk) /\ (side E len bits false (allowed L e_r1) [[]] i1 /\ c_vk (s_coll i1) = vk) /\
  forall B (f : unit -> proc B), asked E (pbind (ask_done QTreeInit QTreeInit) f) s0 s1 = both QTreeInit :: asked E (f tt) i0 i1.
Proof.
  intros U0 U1. destruct (allowed_defined E Hok len bits L Hgood [] ltac:(cbn; lia)) as [D0 D1].
  destruct (handle_init E len bits L vk _ _ _ U0 D0) as (i0 & HI0 & S0 & V0). destruct (handle_init E len bits L vk _ _ _ U1 D1) as (i1 & HI1 & S1 & V1).
  exists i0, i1. split; [split; assumption|]. split; [split; assumption|]. intros B f.
  rewrite (asked_unit _ _ _ _ _ _ _ (interp_ask E _ _ _ _)), asked_one, (proj2 (call2_done_ret _ _ _ _ _ i0 i1)) by eauto. reflexivity.
Qed.

Lemma root_paths : forall p, In p [@nil bool] -> length p = 0.
Proof. intros p [<-|[]]. reflexivity. Qed.

Lemma first_asked fuel levels s0 s1 : side E len bits true (allowed L e_r0) [[]] s0 -> side E len bits false (allowed L e_r1) [[]] s1 ->
  c_vk (s_coll s0) = vk -> c_vk (s_coll s1) = vk -> length L <= fuel -> S levels <= bits -> existsb e_ok L = true ->
  Forall (fun e => report_verdict E len vk (e_r0 e) (e_r1 e) (e_ok e)) L ->
  exists u0 u1, pair_inv E len bits L (frontier_at thr L 1) u0 u1 /\
    interp E (levels_loop_p fuel E cfg (length L) true (S levels)) s0 s1 = unit_of (levels_loop fuel E cfg u0 u1 (length L) false levels) /\
    asked E (levels_loop_p fuel E cfg (length L) true (S levels)) s0 s1 =
    map both (checked (cfg_query_batch cfg) (map e_ok L) ++ [QTreeCrawl 1 [] false; QTreePrune (map h (children (frontier_at thr L 0)))]) ++ asked E (levels_loop_p fuel E cfg (length L) false levels) u0 u1.
Proof.
  intros S0 S1 V0 V1 Hf Hb Hex Hv.
  destruct (flp_run E Hok len bits L vk Hgood cfg Hcfg Hbatch fuel s0 s1 S0 S1 V0 V1 Hf ltac:(lia) Hv) as (t0 & t1 & Ht & Hi).
  assert (Hf1 : 1 <= fuel) by (clear -Hex Hf; destruct L; [discriminate|cbn in Hf; lia]).
  destruct (level_step E Hok len bits L Hgood Hn fuel cfg (length L) [[]] 0 t0 t1 Hi) as (u0 & u1 & Hu & Hiu); try assumption; try lia; [discriminate|apply root_paths|].
  change [[]] with (frontier_at thr L 0) in Hiu. rewrite frontier_next in Hiu. exists u0, u1. split; [exact Hiu|]. split.
  - rewrite interp_levels. cbn [levels_loop]. rewrite Ht. cbn [bind]. rewrite Hu. reflexivity.
  - cbn [levels_loop_p]. rewrite (asked_unit _ _ _ _ _ _ _ (interp_flp E _ _ _ _ _)), Ht, (asked_unit _ _ _ _ _ _ _ (interp_level _ _ _ _ _ _)), Hu.
    rewrite (checks_asked fuel s0 s1 S0 S1 V0 V1 Hf ltac:(lia) Hv), map_app, <- app_assoc. f_equal. f_equal.
    apply (level_asked fuel (length L) [[]] 0); [exact Hi|discriminate|apply root_paths|lia|exact Hex|exact Hf1].
Qed.

Lemma descent_first levels : descent h (S levels) =
  [QTreeCrawl 1 [] false; QTreePrune (map h (children (frontier_at thr L 0)))] ++ flat_map (fun l => [QTreeCrawl 1 [] false; QTreePrune (map h (children (prefixes h l)))]) (seq 1 levels).
Proof. exact (descent_next 0 levels). Qed.

Lemma run_asked fuel s0 s1 : uploaded true len bits vk (map e_r0 L) s0 -> uploaded false len bits vk (map e_r1 L) s1 ->
  cfg_bits cfg = Some bits -> 1 <= bits -> length L <= fuel ->
  (2 <= bits -> existsb e_ok L = true /\ Forall (fun e => report_verdict E len vk (e_r0 e) (e_r1 e) (e_ok e)) L) ->
  (bits = 1 -> forallb e_ok L = true) ->
  (forall l, 1 <= l -> l + 1 < bits -> exists p, length p = l /\ h p = true) ->
  asked E (run_whh_p fuel E cfg (length L)) s0 s1 = map both (script (cfg_query_batch cfg) bits (map e_ok L) h).
Proof.
  intros U0 U1 Hcb Hb Hf Hv H1 Hlv. destruct (init_asked s0 s1 U0 U1) as (i0 & i1 & [S0 V0] & [S1 V1] & Hi).
  unfold run_whh_p, script. rewrite Hi. cbn [map]. f_equal. rewrite asked_pure, Hcb. cbn [unwrap]. rewrite (proj2 (Nat.eqb_neq bits 0)) by lia.
  assert (Hlast : forall level t0 t1, pair_inv E len bits L (frontier_at thr L level) t0 t1 -> S level = bits ->
    asked E (run_level_last_p fuel cfg (length L)) t0 t1 = map both (finish (cfg_query_batch cfg) (length (map e_ok L)) bits h)).
  { intros level t0 t1 Hpi Hlb. unfold finish. rewrite map_length, prefixes_frontier. replace (bits - 1) with level by lia. apply last_asked; [exact Hpi|exact Hf|].
    intros p Hp. apply frontier_length in Hp. lia. }
  destruct (Nat.eq_dec bits 1) as [Hb1|Hb1].
  - rewrite Hb1. cbn [Nat.sub levels_loop_p Nat.leb descent seq flat_map app]. rewrite asked_pure, <- Hb1. apply (Hlast 0); [|lia]. specialize (H1 Hb1).
    assert (He : forall r : entry -> report_share, map (fun e => (e_ok e, r e)) L = allowed L r).
    { intros r. unfold allowed. apply map_ext_in. intros e He. rewrite forallb_forall in H1. rewrite (H1 e He). reflexivity. }
    unfold pair_inv, held0, held1. rewrite !He. split; assumption.
  - destruct (Hv ltac:(lia)) as [Hex Hver]. rewrite (proj2 (Nat.leb_le 2 bits)) by lia.
    destruct (first_asked fuel (bits - 2) i0 i1 S0 S1 V0 V1 Hf ltac:(lia) Hex Hver) as (u0 & u1 & Hiu & Hin & Has). replace (bits - 1) with (S (bits - 2)) by lia.
    assert (Hf1 : 1 <= fuel) by (clear -Hex Hf; destruct L; [discriminate|cbn in Hf; lia]).
    assert (Hne : forall l, 1 <= l < 1 + (bits - 2) -> frontier_at thr L l <> []) by (intros l Hl; apply frontier_nonempty; apply Hlv; lia).
    destruct (levels_run E Hok len bits L Hgood Hn cfg Hcfg fuel (length L) Hf1 Hex (bits - 2) 1 u0 u1 Hiu ltac:(lia) Hne) as (w0 & w1 & Hw & Hiw).
    rewrite (asked_unit _ _ _ _ _ _ _ Hin), Has, Hw, (levels_asked fuel (length L) Hf1 Hex (bits - 2) 1 u0 u1 Hiu ltac:(lia) Hne).
    rewrite descent_first, !map_app, <- !app_assoc. do 3 f_equal. apply (Hlast (1 + (bits - 2))); [exact Hiw|lia].
Qed.

Lemma run_asked_empty fuel s0 s1 l : uploaded true len bits vk (map e_r0 L) s0 -> uploaded false len bits vk (map e_r1 L) s1 ->
  cfg_bits cfg = Some bits -> length L <= fuel -> existsb e_ok L = true -> Forall (fun e => report_verdict E len vk (e_r0 e) (e_r1 e) (e_ok e)) L ->
  1 <= l -> l + 1 < bits -> (forall k, 1 <= k < l -> exists p, length p = k /\ h p = true) -> (forall p, length p = l -> h p = false) ->
  asked E (run_whh_p fuel E cfg (length L)) s0 s1 = map both (short_script (cfg_query_batch cfg) l (map e_ok L) h).
Proof.
  intros U0 U1 Hcb Hf Hex Hver Hl Hlb Hlv He. destruct (init_asked s0 s1 U0 U1) as (i0 & i1 & [S0 V0] & [S1 V1] & Hi).
  unfold run_whh_p, short_script. rewrite Hi. cbn [map]. f_equal. rewrite asked_pure, Hcb. cbn [unwrap]. rewrite (proj2 (Nat.eqb_neq bits 0)) by lia.
  destruct (first_asked fuel (bits - 2) i0 i1 S0 S1 V0 V1 Hf ltac:(lia) Hex Hver) as (u0 & u1 & Hiu & Hin & Has). replace (bits - 1) with (S (bits - 2)) by lia.
  assert (Hf1 : 1 <= fuel) by (clear -Hex Hf; destruct L; [discriminate|cbn in Hf; lia]).
  assert (Hne : forall k, 1 <= k < 1 + (l - 1) -> frontier_at thr L k <> []) by (intros k Hk; apply frontier_nonempty; apply Hlv; lia).
  assert (He' : frontier_at thr L (1 + (l - 1)) = []) by (replace (1 + (l - 1)) with l by lia; apply (frontier_empty len L cfg Hcfg Hbatch); assumption).
  rewrite (asked_unit _ _ _ _ _ _ _ Hin), Has.
  rewrite (levels_run_empty E Hok len bits L Hgood Hn cfg Hcfg Hbatch fuel (length L) Hf1 Hex (bits - 2) 1 u0 u1 Hiu ltac:(lia)) by (exists (1 + (l - 1)); split; [lia|exact He']).
  rewrite (levels_asked_empty fuel (length L) Hf1 Hex (bits - 2) (l - 1) 1 u0 u1 Hiu ltac:(lia) ltac:(lia) Hne He').
  replace l with (S (l - 1)) at 2 by lia. rewrite descent_first, !map_app, <- !app_assoc. cbn [map app]. reflexivity.
Qed.
End View.

(** *** the requests depend on verdicts and heavy prefixes only *)
Lemma prefixes_same h h' k : (forall p, length p = k -> h p = h' p) -> prefixes h k = prefixes h' k.
Proof. intros H. destruct k as [|k]; [reflexivity|]. apply filter_ext_in. intros p Hp. apply H. apply all_paths_length. exact Hp. Qed.
Lemma prefixes_length h k p : In p (prefixes h k) -> length p = k.
Proof. destruct k as [|k]; [intros [<-|[]]; reflexivity|]. intros H. apply filter_In in H. apply all_paths_length. apply H. Qed.
Lemma kept_same h h' k : (forall p, length p <= S k -> h p = h' p) -> map h (children (prefixes h k)) = map h' (children (prefixes h' k)).
Proof.
  intros H. rewrite (prefixes_same h h' k) by (intros p Hp; apply H; lia). apply map_ext_in. intros q Hq. apply children_in in Hq. destruct Hq as (p & d & Hin & ->).
  apply H. rewrite app_length, (prefixes_length _ _ _ Hin). cbn. lia.
Qed.
Lemma descent_same h h' k : (forall p, length p <= k -> h p = h' p) -> descent h k = descent h' k.
Proof. intros H. unfold descent. rewrite !flat_map_concat_map. f_equal. apply map_ext_in. intros l Hl. apply in_seq in Hl. rewrite (kept_same h h' l) by (intros p Hp; apply H; lia). reflexivity. Qed.
Lemma script_same b bits oks h h' : 1 <= bits -> (forall p, length p <= bits -> h p = h' p) -> script b bits oks h = script b bits oks h'.
Proof.
  intros Hb H. unfold script, finish. rewrite (descent_same h h' (bits - 1)) by (intros p Hp; apply H; lia). rewrite (kept_same h h' (bits - 1)) by (intros p Hp; apply H; lia). reflexivity.
Qed.

Lemma view_lemma E len bits L vk fuel cfg s0 s1 : env_ok E -> Forall (good_entry E len bits) L -> (Z.of_nat (length L) < 2 ^ 64)%Z ->
  cfg_hist cfg = len -> cfg_bits cfg = Some bits -> 0 < cfg_query_batch cfg -> 1 <= bits -> length L <= fuel ->
  uploaded true len bits vk (map e_r0 L) s0 -> uploaded false len bits vk (map e_r1 L) s1 ->
  (2 <= bits -> existsb e_ok L = true /\ Forall (fun e => report_verdict E len vk (e_r0 e) (e_r1 e) (e_ok e)) L) ->
  (bits = 1 -> forallb e_ok L = true) ->
  (forall l, 1 <= l -> l + 1 < bits -> exists p, length p = l /\ heavy (threshold cfg) L p = true) ->
  let qs := script (cfg_query_batch cfg) bits (map e_ok L) (heavy (threshold cfg) L) in
  asked E (run_whh_p fuel E cfg (length L)) s0 s1 = map both qs /\
  exists rs, run_whh fuel E cfg s0 s1 (length L) = Ret (fst (handle_all E s0 qs), fst (handle_all E s1 qs), rs).
Proof.
  intros Hok Hg Hn Hc Hcb Hq Hb Hf U0 U1 Hv H1 Hl qs.
  assert (Ha : asked E (run_whh_p fuel E cfg (length L)) s0 s1 = map both qs) by (eapply run_asked; eassumption). split; [exact Ha|].
  destruct (run_whh_ok E Hok len bits L vk Hg Hn cfg Hc Hq fuel s0 s1 U0 U1 Hcb Hb Hf Hv H1 Hl) as (t0 & t1 & Hr).
  pose proof Hr as Hi. rewrite <- interp_run_whh in Hi. apply asked_state in Hi. rewrite Ha, !map_map in Hi. cbn [both fst snd] in Hi. rewrite !map_id in Hi.
  destruct Hi as [<- <-]. eexists. exact Hr.
Qed.

Lemma same_view E len bits L L' vk vk' fuel fuel' cfg s0 s1 s0' s1' : env_ok E -> Forall (good_entry E len bits) L -> Forall (good_entry E len bits) L' -> (Z.of_nat (length L) < 2 ^ 64)%Z ->
  cfg_hist cfg = len -> cfg_bits cfg = Some bits -> 0 < cfg_query_batch cfg -> 2 <= bits -> length L <= fuel -> length L <= fuel' ->
  uploaded true len bits vk (map e_r0 L) s0 -> uploaded false len bits vk (map e_r1 L) s1 ->
  uploaded true len bits vk' (map e_r0 L') s0' -> uploaded false len bits vk' (map e_r1 L') s1' ->
  existsb e_ok L = true -> Forall (fun e => report_verdict E len vk (e_r0 e) (e_r1 e) (e_ok e)) L -> Forall (fun e => report_verdict E len vk' (e_r0 e) (e_r1 e) (e_ok e)) L' ->
  (forall l, 1 <= l -> l + 1 < bits -> exists p, length p = l /\ heavy (threshold cfg) L p = true) ->
  map e_ok L = map e_ok L' -> (forall p, length p <= bits -> heavy (threshold cfg) L p = heavy (threshold cfg) L' p) ->
  asked E (run_whh_p fuel E cfg (length L)) s0 s1 = asked E (run_whh_p fuel' E cfg (length L')) s0' s1'.
Proof.
  intros Hok Hg Hg' Hn Hc Hcb Hq Hb Hf Hf' U0 U1 U0' U1' Hex Hv Hv' Hl He Hh.
  assert (Hlen : length L' = length L) by (rewrite <- !(map_length e_ok), He; reflexivity).
  assert (Hex' : existsb e_ok L' = true).
  { assert (Hx : forall l, existsb e_ok l = existsb (fun b => b) (map e_ok l)) by (induction l as [|x l IH]; [reflexivity|cbn; rewrite IH; reflexivity]). rewrite Hx, <- He, <- Hx. exact Hex. }
  rewrite (run_asked E Hok len bits L Hg Hn cfg Hc Hq vk fuel s0 s1 U0 U1 Hcb ltac:(lia) Hf) by (auto || lia).
  rewrite (run_asked E Hok len bits L' Hg' ltac:(rewrite Hlen; exact Hn) cfg Hc Hq vk' fuel' s0' s1' U0' U1' Hcb ltac:(lia) ltac:(rewrite Hlen; exact Hf')); [|auto|lia|].
  - rewrite He, (script_same (cfg_query_batch cfg) bits (map e_ok L') (heavy (threshold cfg) L) (heavy (threshold cfg) L') ltac:(lia) Hh). reflexivity.
  - intros l H1 H2. destruct (Hl l H1 H2) as (p & Hp & Hpp). exists p. split; [exact Hp|]. rewrite <- Hh by lia. exact Hpp.
Qed.

(** *** from the start of the program *)
Definition halves (part : list (report_share * report_share)) : request * request := (QAddReportShares (map fst part), QAddReportShares (map snd part)).
Lemma add_asked E rs chs ups s0 s1 : mapM (make_upload rs) chs = Ret ups -> asked E (add_reports_p rs chs) s0 s1 = [halves ups].
Proof. intros H. unfold add_reports_p. rewrite asked_pure, H. apply asked_one. Qed.
Lemma batches_asked E rs : forall sizes chs ups s0 s1, list_sum sizes = length chs -> s_poison s0 = false -> s_poison s1 = false -> mapM (make_upload rs) chs = Ret ups ->
  exists parts, concat parts = ups /\ asked E (upload_batches_p rs sizes chs) s0 s1 = map halves parts.
Proof.
  induction sizes as [|n sizes IH]; intros chs ups s0 s1 Hs H0 H1 Hu; cbn [upload_batches_p].
  - destruct chs; [|discriminate]. injection Hu as <-. exists []. split; reflexivity.
  - cbn [list_sum fold_right] in Hs. fold (list_sum sizes) in Hs.
    rewrite <- (firstn_skipn n chs) in Hu. rewrite mapM_app in Hu. bret Hu as u1 Hu1. bret Hu as u2 Hu2. injection Hu as <-.
    rewrite (asked_unit _ _ _ _ _ _ _ (interp_add _ _ _ _ _)), (add_asked _ _ _ _ _ _ Hu1). unfold add_reports. rewrite Hu1. cbn [bind].
    rewrite (proj2 (call2_done_ret _ _ _ _ _ _ _)) by (do 2 eexists; split; apply handle_add; assumption).
    destruct (IH (skipn n chs) u2 (with_reports s0 (map fst u1)) (with_reports s1 (map snd u1))) as (parts & Hp & Ha); [rewrite skipn_length; lia|exact H0|exact H1|exact Hu2|].
    exists (u1 :: parts). split; [cbn [concat]; rewrite Hp; reflexivity|]. rewrite Ha. reflexivity.
Qed.
Lemma upload_asked fuel E cfg rs chs ups s0 s1 : 0 < cfg_add_batch cfg -> length chs <= fuel -> s_poison s0 = false -> s_poison s1 = false -> mapM (make_upload rs) chs = Ret ups ->
  exists parts, concat parts = ups /\ asked E (upload_p fuel cfg rs chs) s0 s1 = map halves parts.
Proof.
  intros Hb Hf H0 H1 Hu. unfold upload_p. destruct (upload_sizes_spec _ Hb _ _ Hf) as (sizes & -> & Hs).
  destruct (batches_asked E rs sizes chs ups s0 s1 Hs H0 H1 Hu) as (parts & Hp & Ha). exists parts. split; [exact Hp|]. rewrite asked_pure. exact Ha.
Qed.

Lemma main_asked E len bits vk clients reports chs fuel cfg s0 s1 :
  env_ok E -> 1 <= bits -> mapM (gen_report E len) clients = Ret reports ->
  Forall (good_client E len bits vk) clients -> Forall (good_choice E len vk reports) chs ->
  cfg_hist cfg = len -> cfg_bits cfg = Some bits -> 0 < cfg_query_batch cfg -> 0 < cfg_add_batch cfg -> hist_ok len = true -> clients <> [] ->
  length chs <= fuel -> (Z.of_nat (length chs) < 2 ^ 64)%Z -> running 0 bits s0 -> (exists id, id <> 0%Z /\ running id bits s1) ->
  (2 <= bits -> existsb counts chs = true) -> (bits = 1 -> forallb counts chs = true) ->
  (forall l, 1 <= l -> l + 1 < bits -> exists p, length p = l /\ popular (threshold cfg) (ballots clients chs) p = true) ->
  exists ups parts, mapM (make_upload reports) chs = Ret ups /\ concat parts = ups /\
    asked E (main_whh_p fuel E cfg clients vk chs) s0 s1 =
    both (QReset vk len) :: map (fun part => (QAddReportShares (map fst part), QAddReportShares (map snd part))) parts ++
    map both (script (cfg_query_batch cfg) bits (map counts chs) (popular (threshold cfg) (ballots clients chs))).
Proof.
  intros Hok Hb Hrep Hcl Hch Hh Hbits Hq Ha Hist Hne Hf Hn (P0 & I0 & B0) (id & Hid & P1 & I1 & B1) He2 He1 Hpop.
  pose proof (uploads_ret E Hok len bits vk clients reports chs Hb Hrep Hcl Hch) as Hu.
  set (r0 := set_coll s0 (coll_new len (s_id s0) (s_bits s0) vk)). set (r1 := set_coll s1 (coll_new len (s_id s1) (s_bits s1) vk)).
  destruct (upload_asked fuel E cfg reports chs _ r0 r1 Ha Hf P0 P1 Hu) as (parts & Hp & Hua).
  exists (map (fun ch => (share0 reports ch, share1 reports ch)) chs), parts. split; [exact Hu|]. split; [exact Hp|].
  assert (Hreset : forall s, s_poison s = false -> handle E s (QReset vk len) = (set_coll s (coll_new len (s_id s) (s_bits s) vk), Ret ADone)).
  { intros s Hps. apply handle_ret. split; [reflexivity|]. split; [exact Hps|]. eexists. split; [|reflexivity]. cbn [body]. rewrite Hist. reflexivity. }
  unfold main_whh_p. rewrite Hh, Hist. cbn [negb]. destruct (length clients =? 0) eqn:Hz; [apply Nat.eqb_eq, length_zero_iff_nil in Hz; contradiction|]. cbn [asked]. rewrite (alone_reports E), Hrep.
  rewrite (asked_unit _ _ _ _ _ _ _ (interp_reset _ _ _ _ _)). unfold reset_p. rewrite asked_one, Hh. cbn [app]. unfold both at 1. f_equal.
  unfold reset_servers. rewrite Hh. rewrite (proj2 (call2_done_ret _ _ _ _ _ r0 r1)) by (do 2 eexists; split; apply Hreset; assumption).
  rewrite (asked_unit _ _ _ _ _ _ _ (interp_upload _ _ _ _ _ _ _)), Hua. f_equal.
  rewrite (upload_spec fuel E cfg reports chs _ r0 r1 Ha Hf P0 P1 Hu), !map_map. cbn [fst snd].
  set (L := map (entry_of len clients reports) chs). set (u0 := with_reports r0 _). set (u1 := with_reports r1 _).
  assert (U0 : uploaded true len bits vk (map e_r0 L) u0).
  { unfold uploaded, u0, r0, L. cbn. rewrite I0, B0, P0, !map_map. repeat (split; [reflexivity|]). reflexivity. }
  assert (U1 : uploaded false len bits vk (map e_r1 L) u1).
  { unfold uploaded, u1, r1, L. cbn. rewrite I1, B1, P1, !map_map. split; [reflexivity|]. split; [apply Z.eqb_neq; exact Hid|]. repeat (split; [reflexivity|]). reflexivity. }
  assert (Hl : length L = length chs) by apply map_length. rewrite <- Hl.
  pose proof (entries_good E Hok len bits vk clients reports chs Hb Hrep Hcl Hch) as Hg.
  assert (Hhp : forall p, heavy (threshold cfg) L p = popular (threshold cfg) (ballots clients chs) p) by (intros p; apply (heavy_popular E Hok len bits vk clients reports chs Hb Hrep Hcl Hch)).
  rewrite (run_asked E Hok len bits L Hg ltac:(rewrite Hl; exact Hn) cfg Hh Hq vk fuel u0 u1 U0 U1 Hbits Hb ltac:(rewrite Hl; exact Hf)).
  - f_equal. rewrite (script_same _ _ _ _ (popular (threshold cfg) (ballots clients chs)) Hb) by (intros p _; apply Hhp). unfold L. rewrite map_map. reflexivity.
  - intros H2. split; [unfold L; rewrite entries_exist; apply He2; exact H2|apply (entries_verdict E Hok len bits vk clients reports chs Hb Hrep Hcl Hch)].
  - intros H1. unfold L. rewrite entries_all. apply He1. exact H1.
  - intros l Hl1 Hl2. destruct (Hpop l Hl1 Hl2) as (p & Hpl & Hpp). exists p. rewrite Hhp. auto.
Qed.
Lemma view_broken_off E len bits L vk fuel cfg s0 s1 l :
  env_ok E -> Forall (good_entry E len bits) L -> (Z.of_nat (length L) < 2 ^ 64)%Z ->
  cfg_hist cfg = len -> cfg_bits cfg = Some bits -> 0 < cfg_query_batch cfg -> length L <= fuel ->
  uploaded true len bits vk (map e_r0 L) s0 -> uploaded false len bits vk (map e_r1 L) s1 ->
  existsb e_ok L = true -> Forall (fun e => report_verdict E len vk (e_r0 e) (e_r1 e) (e_ok e)) L -> 1 <= l -> l + 1 < bits ->
  (forall k, 1 <= k < l -> exists p, length p = k /\ heavy (threshold cfg) L p = true) -> (forall p, length p = l -> heavy (threshold cfg) L p = false) ->
  asked E (run_whh_p fuel E cfg (length L)) s0 s1 = map both (short_script (cfg_query_batch cfg) l (map e_ok L) (heavy (threshold cfg) L)).
Proof. intros Hok Hg Hn Hc Hcb Hq Hf U0 U1 Hex Hv H1 H2 H3 H4. eapply run_asked_empty; eassumption. Qed.
