(** Complete runs with arbitrary reports (C51). *)
From Verif Require Import Base BaseFacts Field Util UtilFacts Env Prg Vidpf SpecVidpf SpecTree VidpfTreeFacts VidpfTreeFacts3 Merkle Collect Server Driver SpecCollect SpecServer SpecDriver SpecCheck SpecLevel SpecWhh SpecSearch SpecLast SpecRun
  CollectFacts CollectInv ServerFacts DriverFacts DriverPropFacts RefuteFacts MerkleFacts LevelFacts PairFacts WhhFacts WhhFacts2 FlpFacts WhhFacts3 SearchFacts SearchRun SearchMain SearchProp LastFacts.

Lemma pairs_defined E len bits R first p : env_ok E -> well_formed_pairs bits R -> length p <= bits -> defined_at E len (held first R) p.
Proof.
  intros Hok Hwf Hp. apply (wf_defined E Hok bits); [|exact Hp]. unfold held. rewrite map_map. cbn [snd]. apply Forall_map.
  eapply Forall_impl; [|exact Hwf]. intros x [Ha Hb]. destruct first; assumption.
Qed.
Lemma flags_shares P R first : map snd P = map snd R -> same_shares (held first P) (held first R).
Proof.
  intros H. unfold same_shares, held. rewrite !map_map. cbn [snd]. unfold share_of.
  destruct first; rewrite <- !(map_map snd (fun y => _ y)); [exact (f_equal (map fst) H)|exact (f_equal (map snd) H)].
Qed.
Lemma wf_flags bits P R : map snd P = map snd R -> well_formed_pairs bits R -> well_formed_pairs bits P.
Proof.
  assert (Hm : forall P : list pair, well_formed_pairs bits P <-> Forall (fun y => well_formed bits (fst y) /\ well_formed bits (snd y)) (map snd P)) by (intros Q; symmetry; apply Forall_map).
  intros H. rewrite !Hm, H. auto.
Qed.

(** *** one level without inconsistent reports *)
Lemma bad_none_strings E len level paths R : bad_ranks E len level paths R = [] -> map (vstring E true len level paths) (remaining R) = map (vstring E false len level paths) (remaining R).
Proof. intros H. apply map_ext_in. intros x Hx. apply bytes_eqb_eq. apply (bad_none _ _ _ _ _ H x Hx). Qed.

Lemma merkle_empty E : merkle_part E [] 1 [] false = Panic PIndex.
Proof.
  unfold merkle_part. cbn [Nat.eqb length]. rewrite Nat.div_1_r. unfold chunks.
  destruct (2 ^ clog2f E 0) eqn:Hz; [pose proof (pow2_ge1 (clog2f E 0)); lia|]. reflexivity.
Qed.

Section Level.
Variables (E : env) (len bits level : nat) (paths : list (list bool)) (R : list pair) (s0 s1 : server) (fuel : nat) (cfg : config).
Hypothesis Hok : env_ok E.
Hypothesis H0 : at_frontier E true len bits paths (held true R) s0.
Hypothesis H1 : at_frontier E false len bits paths (held false R) s1.
Hypothesis Hwf : well_formed_pairs bits R.
Hypothesis Hp : forall p, In p paths -> length p = level.
Hypothesis Hl : level < bits.
Hypothesis Hcfg : cfg_hist cfg = len.
Hypothesis Hfuel : 1 <= fuel.

Lemma level_same : paths <> [] -> remaining R <> [] -> bad_ranks E len level paths R = [] ->
  exists t0 t1, run_level fuel E cfg s0 s1 (length R) = Ret (t0, t1) /\ after_level E len bits (threshold cfg) R paths t0 t1.
Proof.
  intros Hne Hm Hbad. destruct fuel as [|f] eqn:Hfu; [lia|]. pose proof (at_side _ _ _ _ _ _ _ H0) as S0. pose proof (at_side _ _ _ _ _ _ _ H1) as S1.
  assert (Hd : forall first p, length p <= bits -> defined_at E len (held first R) p) by (intros; apply (pairs_defined E len bits); assumption).
  pose proof (bad_none_strings _ _ _ _ _ Hbad) as Hstr. rewrite <- !strings_held in Hstr.
  assert (Hsne : strings_of E true len level paths (held true R) <> []) by (rewrite strings_held; destruct (remaining R); [contradiction|discriminate]).
  assert (Hm0 : exists root, merkle_part E (strings_of E true len level paths (held true R)) 1 [] false = Ret ([root], [0])).
  { rewrite merkle_one by exact Hsne. set (hs := strings_of E true len level paths (held true R)) in *.
    destruct (merkle_root_some E (firstn (2 ^ clog2f E (length hs)) hs)) as [root Hr].
    - pose proof (pow2_ge1 (clog2f E (length hs))). destruct (2 ^ clog2f E (length hs)); [lia|]. destruct hs; [contradiction|discriminate].
    - rewrite Hr. cbn [unwrap bind]. eauto. }
  destruct Hm0 as [root Hm0]. pose proof Hm0 as Hm1. rewrite Hstr in Hm1.
  pose proof (handle_crawl E len bits [] true _ paths level s0 _ 1 S0 Hne Hp (Hd true) Hl Hm0) as HC0. pose proof (handle_crawl E len bits [] false _ paths level s1 _ 1 S1 Hne Hp (Hd false) Hl Hm1) as HC1.
  cbn [fst snd] in HC0, HC1.
  destruct (side_crawled E len bits _ _ _ _ S0) as [HS0 HF0]. destruct (side_crawled E len bits _ _ _ _ S1) as [HS1 HF1].
  destruct (finish E len bits level paths R cfg Hok Hwf Hp Hl R (crawled_server E s0 paths, crawled_server E s1 paths) 0%Z eq_refl) as (t0 & t1 & Ht & Ha).
  { unfold ended. cbn [fst snd]. auto. }
  exists t0, t1. split; [|exact Ha]. unfold run_level. cbn [level_loop]. unfold ask_servers at 1. cbn [fst snd].
  rewrite (proj2 (call2_ret _ _ _ _ _ _ _ _ _) (conj HC0 HC1)). cbn [bind].
  rewrite (proj2 (assert_true _)) by (rewrite !map_length; apply Nat.eqb_refl). cbn [bind].
  rewrite Hcfg. pose proof (keep_seen E len (threshold cfg) paths R) as Hk. unfold values_of in Hk. rewrite Hk.
  cbn [bind length Nat.eqb mismatches seq foldM index nth_error]. rewrite bytes_eqb_refl. cbn [bind fst snd]. exact Ht.
Qed.

Lemma level_no_report : paths <> [] -> remaining R = [] -> run_level fuel E cfg s0 s1 (length R) = Panic PIndex.
Proof.
  intros Hne Hm. destruct fuel as [|f] eqn:Hfu; [lia|]. pose proof (at_side _ _ _ _ _ _ _ H0) as S0. pose proof S0 as (P0 & I0 & L0 & D0 & Q0 & F0).
  assert (Hd : forall p, length p <= bits -> defined_at E len (held true R) p) by (intros; apply (pairs_defined E len bits); assumption).
  assert (HC : handle E s0 (QTreeCrawl 1 [] false) = (set_poison s0, Panic PIndex)).
  { apply handle_panic; [reflexivity|exact P0|]. cbn [body]. rewrite (tree_crawl_ret E (s_coll s0) paths level bits 1 false).
    - rewrite I0, L0, Q0, strings_held, Hm. cbn [map]. rewrite merkle_empty. reflexivity.
    - eapply side_ready; try eassumption. lia.
    - rewrite L0, Q0. eapply (side_crawlable E len bits []); eassumption.
    - exact D0.
    - exact Hl. }
  unfold run_level. cbn [level_loop]. unfold ask_servers at 1. cbn [fst snd]. unfold call2. rewrite HC. destruct (handle E s1 _) as [t a]. reflexivity.
Qed.
Lemma level_no_path : paths = [] -> run_level fuel E cfg s0 s1 (length R) = Panic PIndex.
Proof.
  intros ->. destruct H0 as (P0 & _ & _ & _ & _ & F0 & _). apply empty_frontier_level; [exact P0|destruct (c_frontier (s_coll s0)); [reflexivity|discriminate]|lia].
Qed.
End Level.

(** *** any level before the last *)
Lemma same_length (P R : list pair) : map snd P = map snd R -> length P = length R.
Proof. intros H. pose proof (f_equal (@length _) H) as Hl. rewrite !map_length in Hl. exact Hl. Qed.
Lemma survivors_length E len thr R paths level p : (forall p, In p paths -> length p = level) -> In p (survivors E len thr R paths) -> length p = S level.
Proof.
  intros Hp H. apply filter_In in H. destruct H as [H _]. apply children_in in H. destruct H as (q & d & Hin & ->). rewrite app_length, (Hp _ Hin). cbn. lia.
Qed.

Section Levels.
Variables (E : env) (len bits : nat) (fuel : nat) (cfg : config).
Hypothesis Hok : env_ok E.
Hypothesis Hcfg : cfg_hist cfg = len.
Notation thr := (threshold cfg).

Lemma level_exact level paths R s0 s1 : at_frontier E true len bits paths (held true R) s0 -> at_frontier E false len bits paths (held false R) s1 ->
  well_formed_pairs bits R -> (forall p, In p paths -> length p = level) -> level < bits -> Nat.log2_up (length R) + 2 <= fuel ->
  (bad_ranks E len level paths R <> [] -> hashes_fine E len level paths R) ->
  match level_effect E len thr level paths R with
  | Ret (paths', R') => map snd R' = map snd R /\ (forall p, In p paths' -> length p = S level) /\
      exists t0 t1, run_level fuel E cfg s0 s1 (length R) = Ret (t0, t1) /\
        at_frontier E true len bits paths' (held true R') t0 /\ at_frontier E false len bits paths' (held false R') t1
  | Panic k => run_level fuel E cfg s0 s1 (length R) = Panic k
  end.
Proof.
  intros H0 H1 Hwf Hp Hl Hf Hfine. unfold level_effect. destruct (Nat.eqb_spec (length paths) 0) as [Hz|Hz]; cbn [orb].
  { apply (level_no_path E len bits level paths R s0 s1 fuel cfg); try assumption; [lia|destruct paths; [reflexivity|discriminate]]. }
  assert (Hne : paths <> []) by (intros ->; apply Hz; reflexivity).
  destruct (Nat.eqb_spec (length (remaining R)) 0) as [Hm|Hm].
  { apply (level_no_report E len bits level paths R s0 s1 fuel cfg); try assumption; [lia|destruct (remaining R); [reflexivity|discriminate]]. }
  assert (Hm' : remaining R <> []) by (intros Hr; rewrite Hr in Hm; apply Hm; reflexivity).
  destruct (bad_ranks E len level paths R) as [|i l] eqn:Hb.
  - split; [reflexivity|]. split; [intros p; apply survivors_length; exact Hp|].
    destruct (level_same E len bits level paths R s0 s1 fuel cfg Hok H0 H1 Hwf Hp Hl Hcfg ltac:(lia) Hne Hm' Hb) as (t0 & t1 & Ht & A & B & _). eauto.
  - specialize (Hfine ltac:(discriminate)). assert (Hnb : bad_ranks E len level paths R <> []) by (rewrite Hb; discriminate). rewrite <- Hb in *. clear Hb i l.
    assert (Hs : level_start E len bits level paths R s0 s1) by (repeat (split; [assumption|]); assumption).
    destruct (Nat.ltb_spec (Nat.log2_up (length (remaining R))) (Nat.log2_up (length R))) as [Hlt|Hge].
    + destruct Hfine as [I J]. apply (search_shrunk E len bits level paths R s0 s1 fuel cfg); try assumption. lia.
    + assert (Heq : Nat.log2_up (length R) = Nat.log2_up (length (remaining R))) by (pose proof (Nat.log2_up_le_mono _ _ (remaining_le R)); lia).
      destruct (Nat.eqb_spec (length (remaining (clear_at (bad_ranks E len level paths R) R))) 0) as [Hr|Hr].
      * apply (p_emptied E len bits level paths R s0 s1 fuel cfg Hok Hs Hfine Hcfg Hf Hnb Heq). destruct (remaining (clear_at _ R)); [reflexivity|discriminate].
      * split; [apply clear_shares|]. split; [intros p; apply survivors_length; exact Hp|].
        destruct (p_effect E len bits level paths R s0 s1 fuel cfg Hok Hs Hfine Hcfg Hf Hnb Heq) as (t0 & t1 & Ht & A & B & _); [intros Hx; rewrite Hx in Hr; apply Hr; reflexivity|]. eauto.
Qed.

Lemma levels_exact n : forall level paths R s0 s1, at_frontier E true len bits paths (held true R) s0 -> at_frontier E false len bits paths (held false R) s1 ->
  well_formed_pairs bits R -> (forall p, In p paths -> length p = level) -> level + n < bits -> Nat.log2_up (length R) + 2 <= fuel ->
  fine_levels E len thr n level paths R ->
  match levels_effect E len thr n level paths R with
  | Ret (paths', R') => map snd R' = map snd R /\ (forall p, In p paths' -> length p = level + n) /\
      exists t0 t1, levels_loop fuel E cfg s0 s1 (length R) false n = Ret (t0, t1) /\
        at_frontier E true len bits paths' (held true R') t0 /\ at_frontier E false len bits paths' (held false R') t1
  | Panic k => levels_loop fuel E cfg s0 s1 (length R) false n = Panic k
  end.
Proof.
  induction n as [|n IH]; intros level paths R s0 s1 H0 H1 Hwf Hp Hl Hf Hfine.
  - cbn [levels_effect levels_loop]. split; [reflexivity|]. split; [intros p Hin; rewrite (Hp p Hin); lia|]. eauto.
  - cbn [levels_effect levels_loop bind]. destruct Hfine as [Hf1 Hf2]. pose proof (level_exact level paths R s0 s1 H0 H1 Hwf Hp ltac:(lia) Hf Hf1) as Hlev.
    destruct (level_effect E len thr level paths R) as [[paths' R']|k]; cbn [bind].
    + destruct Hlev as (Hs & Hp' & t0 & t1 & Ht & A & B). rewrite Ht. cbn [bind].
      assert (Hn : length R' = length R) by (apply same_length; exact Hs).
      pose proof (IH (S level) paths' R' t0 t1 A B (wf_flags bits R' R Hs Hwf) Hp' ltac:(lia) ltac:(rewrite Hn; exact Hf) Hf2) as Hrec. rewrite Hn in Hrec.
      destruct (levels_effect E len thr n (S level) paths' R') as [[paths2 R2]|k].
      * destruct Hrec as (Hs2 & Hp2 & Hx). split; [congruence|]. split; [intros p Hin; rewrite (Hp2 p Hin); lia|exact Hx].
      * exact Hrec.
    + rewrite Hlev. reflexivity.
Qed.
End Levels.

(** *** the FLP phase *)
Section Flp.
Variables (E : env) (len bits : nat) (vk : bytes) (cfg : config) (R : list pair).
Hypothesis Hok : env_ok E.
Hypothesis Hwf : well_formed_pairs bits R.

Definition fresh (P : list pair) : list pair := map (fun x => (true, snd x)) P.
Lemma fresh_shares : map snd (fresh R) = map snd R.
Proof. unfold fresh. rewrite map_map. reflexivity. Qed.
Lemma pair_init first s : uploaded first len bits vk (map (share_of first) R) s ->
  exists t, handle E s QTreeInit = (t, Ret ADone) /\ side E len bits first (held first (fresh R)) [[]] t /\ c_vk (s_coll t) = vk.
Proof.
  intros (H1 & H2 & H3 & H4 & H5 & H6). assert (Hr : c_reports (s_coll s) = held first (fresh R)) by (rewrite H6; unfold held, fresh; rewrite !map_map; reflexivity).
  pose proof (pairs_defined E len bits (fresh R) first [] Hok (wf_flags bits _ R fresh_shares Hwf) ltac:(cbn; lia)) as Hd.
  destruct (tree_init_ret E (s_coll s)) as (f & Hi & Hf).
  { rewrite Hr. intros h x Hin. destruct (Hd h x Hin) as (st & w & Hk & _). exact Hk. }
  exists (set_coll s (set_frontier (s_coll s) f)). split.
  - apply handle_ret. split; [reflexivity|]. split; [exact H1|]. eexists. split; [|reflexivity]. cbn [body]. rewrite Hi. reflexivity.
  - split; [|exact H5]. unfold side. cbn. rewrite H3, Hr in Hf. repeat (split; [assumption|]). exact Hf.
Qed.
Lemma pair_flags first s : side E len bits first (held first (fresh R)) [[]] s ->
  exists t, handle E s (QApplyFlpResults (map fst R)) = (t, Ret ADone) /\ side E len bits first (held first R) [[]] t.
Proof.
  intros (H1 & H2 & H3 & H4 & H5 & H6). eexists. split.
  - apply handle_ret. split; [reflexivity|]. split; [exact H1|]. eexists. split; [|reflexivity]. cbn [body].
    rewrite apply_flp_results_spec, H5. unfold held, fresh. rewrite !map_length, Nat.eqb_refl. cbn [bind]. reflexivity.
  - unfold side. cbn. repeat (split; [assumption || reflexivity|]). split.
    + unfold held, fresh, mark. rewrite map_map, combine_maps, map_map. reflexivity.
    + eapply fronts_same; [|exact H6]. apply flags_shares. exact fresh_shares.
Qed.
Lemma pair_flp fuel s0 s1 : cfg_hist cfg = len -> 0 < cfg_query_batch cfg ->
  side E len bits true (held true (fresh R)) [[]] s0 -> side E len bits false (held false (fresh R)) [[]] s1 ->
  c_vk (s_coll s0) = vk -> c_vk (s_coll s1) = vk -> length R <= fuel -> 1 <= bits ->
  Forall (fun x => report_verdict E len vk (share_of true x) (share_of false x) (fst x)) R ->
  exists t0 t1, drv_run_flp_queries fuel E cfg s0 s1 (length R) = Ret (t0, t1) /\
    at_frontier E true len bits [[]] (held true R) t0 /\ at_frontier E false len bits [[]] (held false R) t1.
Proof.
  intros Hcfg Hbatch S0 S1 V0 V1 Hf Hb1 Hv.
  assert (Hd : forall first p, length p <= 1 -> defined_at E len (held first (fresh R)) p) by (intros first p Hp; apply (pairs_defined E len bits); [exact Hok|apply (wf_flags bits _ R fresh_shares Hwf)|lia]).
  destruct (side_root E len bits [] (Forall_nil _) _ _ _ S0 (Hd true [] ltac:(cbn; lia))) as [A0 R0]. destruct (side_root E len bits [] (Forall_nil _) _ _ _ S1 (Hd false [] ltac:(cbn; lia))) as [A1 R1].
  assert (Hn : forall first, length (held first (fresh R)) = length R) by (intros; unfold held, fresh; rewrite !map_length; reflexivity). rewrite Hn in R0, R1.
  assert (HL : flp_loop fuel E cfg s0 s1 (length R) 0 [] = Ret (s0, s1, map fst R)).
  { apply (flp_decisions fuel E cfg s0 s1 (length R) s0 s1 (map fst R)); [exact Hbatch|exact Hf|apply S0|apply S1|exact R0|exact R1|].
    split; [reflexivity|]. split; [reflexivity|]. split; [apply map_length|]. intros i b Hi.
    rewrite nth_error_map' in Hi. destruct (nth_error R i) as [x|] eqn:Hx; [|unfold pair in *; rewrite Hx in Hi; discriminate].
    assert (Hb : b = fst x) by (unfold pair in *; rewrite Hx in Hi; cbn in Hi; congruence). subst b. rewrite Hcfg.
    destruct S0 as (P0 & I0 & L0 & D0 & Q0 & F0). destruct S1 as (P1 & I1 & L1 & D1 & Q1 & F1).
    assert (Hnth : forall first, nth_error (held first (fresh R)) i = Some (true, share_of first x)) by (intros first; unfold held, fresh; rewrite map_map, nth_error_map'; unfold pair in *; rewrite Hx; reflexivity).
    apply (verdict_iff E (s_coll s0) (s_coll s1) len i true true (share_of true x) (share_of false x)); try assumption.
    - congruence.
    - intros p Hp. rewrite Q0, Q1. split; apply Hd; lia.
    - rewrite Q0. apply Hnth.
    - rewrite Q1. apply Hnth.
    - rewrite V0. rewrite Forall_forall in Hv. apply Hv. eapply nth_error_In. exact Hx. }
  destruct (pair_flags _ _ S0) as (t0 & H0 & T0). destruct (pair_flags _ _ S1) as (t1 & H1 & T1).
  exists t0, t1. split; [unfold drv_run_flp_queries; rewrite HL; cbn [bind]; apply call2_done_ret; eauto|].
  split; (apply side_at; [assumption|]); intros p [<-|[]]; apply (pairs_defined E len bits); try assumption; cbn; lia.
Qed.
End Flp.

(** *** complete runs *)
Lemma run_exact fuel E cfg len bits vk R s0 s1 :
  env_ok E -> well_formed_pairs bits R -> flp_flags E len bits vk R -> fine_levels E len (threshold cfg) (bits - 1) 0 [[]] R ->
  uploaded true len bits vk (map (share_of true) R) s0 -> uploaded false len bits vk (map (share_of false) R) s1 ->
  cfg_hist cfg = len -> cfg_bits cfg = Some bits -> 1 <= bits -> 0 < cfg_query_batch cfg -> length R + 2 <= fuel ->
  exists t0 t1, run_whh fuel E cfg s0 s1 (length R) =
    let! rs := run_effect E len (threshold cfg) (cfg_query_batch cfg) bits R in Ret (t0, t1, rs).
Proof.
  intros Hok Hwf Hflags Hfine U0 U1 Hcfg Hcb Hb Hbatch Hf.
  destruct (pair_init E len bits vk R Hok Hwf true s0 U0) as (i0 & HI0 & S0 & V0). destruct (pair_init E len bits vk R Hok Hwf false s1 U1) as (i1 & HI1 & S1 & V1).
  unfold run_whh. rewrite (proj2 (call2_done_ret _ _ _ _ _ i0 i1)) by eauto. cbn [bind]. rewrite Hcb. cbn [unwrap bind].
  rewrite (proj2 (Nat.eqb_neq bits 0)) by lia.
  assert (Hlg : Nat.log2_up (length R) + 2 <= fuel) by (pose proof (Nat.log2_up_le_lin (length R) ltac:(lia)); lia).
  assert (Hroot : forall p, In p [@nil bool] -> length p = 0) by (intros p [<-|[]]; reflexivity).
  assert (Hmain : exists u0 u1, (let! '(s0, s1) := levels_loop fuel E cfg i0 i1 (length R) true (bits - 1) in run_level_last fuel E cfg s0 s1 (length R)) =
      (let! '(s0, s1) := levels_loop fuel E cfg u0 u1 (length R) false (bits - 1) in run_level_last fuel E cfg s0 s1 (length R)) /\
      at_frontier E true len bits [[]] (held true R) u0 /\ at_frontier E false len bits [[]] (held false R) u1).
  { unfold flp_flags in Hflags. destruct (Nat.eqb_spec bits 1) as [->|Hb1].
    - exists i0, i1. split; [reflexivity|].
      assert (Hfr : fresh R = R) by (unfold fresh; rewrite <- (map_id R) at 2; apply map_ext_in; intros [h x] Hin; unfold all_accepted in Hflags; rewrite Forall_forall in Hflags; specialize (Hflags _ Hin); cbn in Hflags; subst h; reflexivity).
      rewrite Hfr in S0, S1. split; (apply side_at; [assumption|]); intros p [<-|[]]; apply (pairs_defined E len 1); try assumption; cbn; lia.
    - destruct (pair_flp E len bits vk cfg R Hok Hwf fuel i0 i1 Hcfg Hbatch S0 S1 V0 V1 ltac:(lia) Hb Hflags) as (u0 & u1 & Hu & A & B).
      exists u0, u1. split; [|split; assumption]. replace (bits - 1) with (S (bits - 2)) by lia. cbn [levels_loop]. rewrite Hu. reflexivity. }
  destruct Hmain as (u0 & u1 & Hm & A & B). rewrite Hm. clear Hm.
  pose proof (levels_exact E len bits fuel cfg Hok Hcfg (bits - 1) 0 [[]] R u0 u1 A B Hwf Hroot ltac:(lia) Hlg Hfine) as Hlev. unfold run_effect.
  destruct (levels_effect E len (threshold cfg) (bits - 1) 0 [[]] R) as [[paths R']|k]; cbn [bind].
  - destruct Hlev as (Hs & Hp & t0 & t1 & Ht & C & D). rewrite Ht. cbn [bind].
    assert (Hn : length R' = length R) by (apply same_length; exact Hs).
    destruct (last_any E len bits (bits - 1) paths R' t0 t1 fuel cfg Hok C D (wf_flags bits R' R Hs Hwf) Hp ltac:(lia) Hcfg Hbatch ltac:(lia)) as (w0 & w1 & Hw).
    rewrite Hn in *. rewrite Hw. exists w0, w1. destruct (forallb _ _); reflexivity.
  - rewrite Hlev. exists s0, s1. reflexivity.
Qed.
