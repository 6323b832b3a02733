(** Complete runs of weighted heavy hitters: from the uploaded reports to the result. *)
From Verif Require Import Base BaseFacts Field Util UtilFacts Env Prg PrgFacts PrgSpecFacts2 Vidpf SpecVidpf SpecTree VidpfFacts VidpfEvalFacts VidpfTreeFacts VidpfTreeFacts3 VidpfTreeFacts4
  Merkle Collect Server Driver SpecCollect SpecServer SpecDriver SpecCheck SpecLevel SpecWhh CollectFacts CollectInv ServerFacts DriverFacts DriverPropFacts RefuteFacts MerkleFacts LevelFacts PairFacts WhhFacts WhhFacts2 FlpFacts.

Section Run.
Variable E : env.
Hypothesis Hok : env_ok E.

Lemma tree_init_ret c : (forall h r, In (h, r) (c_reports c) -> unwrap_vidpf_key r = Ret (key_of r)) ->
  exists f, tree_init c = Ret (set_frontier c f) /\ fronts E (c_len c) (c_reports c) [[]] f.
Proof.
  intros H. unfold tree_init.
  rewrite (mapM_ret _ (fun hr : bool * report_share => eval_init (key_of (snd hr)))).
  - cbn [bind]. eexists. split; [reflexivity|]. constructor; [|constructor]. unfold node_is. cbn [tn_path tn_states tn_values].
    split; [reflexivity|]. split; [reflexivity|]. unfold words_of. apply map_ext. intros hr. reflexivity.
  - intros [h r] Hin. cbn [snd]. rewrite (H h r Hin). reflexivity.
Qed.

Lemma same_flags (f g : entry -> bool) (r : entry -> report_share) L : same_shares (map (fun e => (f e, r e)) L) (map (fun e => (g e, r e)) L).
Proof. unfold same_shares. rewrite !map_map. reflexivity. Qed.

Lemma mark_flags (r : entry -> report_share) L : mark (map e_ok L) (map (fun e => (true, r e)) L) = map (fun e => (e_ok e, r e)) L.
Proof. unfold mark. rewrite combine_maps, map_map. reflexivity. Qed.

Variables (len bits : nat) (L : list entry) (vk : bytes).
Hypothesis Hgood : Forall (good_entry E len bits) L.
Hypothesis Hn : (Z.of_nat (length L) < 2 ^ 64)%Z.

Definition allowed (r : entry -> report_share) : list (bool * report_share) := map (fun e => (true, r e)) L.
Lemma allowed_defined p : length p <= bits -> defined_at E len (allowed e_r0) p /\ defined_at E len (allowed e_r1) p.
Proof.
  intros Hp. destruct (good_defined E Hok len bits L Hgood p Hp) as [A B].
  split; [apply (defined_same E len (held0 L))|apply (defined_same E len (held1 L))]; try assumption; apply same_flags.
Qed.

Lemma handle_init first (r : entry -> report_share) s : uploaded first len bits vk (map r L) s -> defined_at E len (allowed r) [] ->
  exists t, handle E s QTreeInit = (t, Ret ADone) /\ side E len bits first (allowed r) [[]] t /\ c_vk (s_coll t) = vk.
Proof.
  intros (H1 & H2 & H3 & H4 & H5 & H6) Hd. rewrite map_map in H6. change (map (fun x => (true, r x)) L) with (allowed r) in H6.
  destruct (tree_init_ret (s_coll s)) as (f & Hi & Hf).
  { rewrite H6. intros h x Hin. destruct (Hd h x Hin) as (st & w & Hk & _). exact Hk. }
  exists (set_coll s (set_frontier (s_coll s) f)). split.
  - apply handle_ret. split; [reflexivity|]. split; [exact H1|]. eexists. split; [|reflexivity]. cbn [body]. rewrite Hi. reflexivity.
  - split; [|exact H5]. unfold side. cbn. rewrite H3, H6 in Hf. repeat (split; [assumption|]). exact Hf.
Qed.

Lemma side_root first reps s : side E len bits first reps [[]] s -> defined_at E len reps [] -> at_root E (s_coll s) /\ root_of (s_coll s) (length reps).
Proof.
  intros (H1 & H2 & H3 & H4 & H5 & H6) Hd. split.
  - split; rewrite H3, H5; assumption.
  - inversion H6 as [|p n ps f Hnode Hrest Hp Hfe]. inversion Hrest. subst. exists n. split; [auto|]. destruct Hnode as (_ & _ & ->). unfold words_of. apply map_length.
Qed.

Lemma handle_flags first (r : entry -> report_share) s : side E len bits first (allowed r) [[]] s ->
  exists t, handle E s (QApplyFlpResults (map e_ok L)) = (t, Ret ADone) /\ side E len bits first (map (fun e => (e_ok e, r e)) L) [[]] t.
Proof.
  intros (H1 & H2 & H3 & H4 & H5 & H6). eexists. split.
  - apply handle_ret. split; [reflexivity|]. split; [exact H1|]. eexists. split; [|reflexivity]. cbn [body].
    rewrite apply_flp_results_spec, H5. unfold allowed. rewrite !map_length, Nat.eqb_refl. cbn [bind]. rewrite mark_flags. reflexivity.
  - unfold side. cbn. repeat (split; [assumption || reflexivity|]). eapply fronts_same; [|exact H6]. apply same_flags.
Qed.

Variable cfg : config.
Hypothesis Hcfg : cfg_hist cfg = len.
Hypothesis Hbatch : 0 < cfg_query_batch cfg.

Lemma flp_run fuel s0 s1 : side E len bits true (allowed e_r0) [[]] s0 -> side E len bits false (allowed e_r1) [[]] s1 ->
  c_vk (s_coll s0) = vk -> c_vk (s_coll s1) = vk -> length L <= fuel -> 1 <= bits ->
  Forall (fun e => report_verdict E len vk (e_r0 e) (e_r1 e) (e_ok e)) L ->
  exists t0 t1, drv_run_flp_queries fuel E cfg s0 s1 (length L) = Ret (t0, t1) /\ pair_inv E len bits L [[]] t0 t1.
Proof.
  intros S0 S1 V0 V1 Hf Hb1 Hv.
  assert (Hd : forall p, length p <= 1 -> defined_at E len (allowed e_r0) p /\ defined_at E len (allowed e_r1) p) by (intros p Hp; apply allowed_defined; lia).
  destruct (side_root _ _ _ S0 (proj1 (Hd [] ltac:(cbn; lia)))) as [A0 R0]. destruct (side_root _ _ _ S1 (proj2 (Hd [] ltac:(cbn; lia)))) as [A1 R1].
  unfold allowed in R0, R1. rewrite map_length in R0, R1.
  assert (HL : flp_loop fuel E cfg s0 s1 (length L) 0 [] = Ret (s0, s1, map e_ok L)).
  { apply (flp_decisions fuel E cfg s0 s1 (length L) s0 s1 (map e_ok L)); [exact Hbatch|exact Hf|apply S0|apply S1|exact R0|exact R1|].
    split; [reflexivity|]. split; [reflexivity|]. split; [apply map_length|]. intros i b Hi.
    rewrite nth_error_map' in Hi. destruct (nth_error L i) as [e|] eqn:He; [|discriminate]. injection Hi as <-. rewrite Hcfg.
    destruct S0 as (P0 & I0 & L0 & D0 & Q0 & F0). destruct S1 as (P1 & I1 & L1 & D1 & Q1 & F1).
    apply (verdict_iff E (s_coll s0) (s_coll s1) len i true true (e_r0 e) (e_r1 e)); try assumption.
    - congruence.
    - intros p Hp. rewrite Q0, Q1. apply Hd. lia.
    - rewrite Q0. unfold allowed. rewrite nth_error_map', He. reflexivity.
    - rewrite Q1. unfold allowed. rewrite nth_error_map', He. reflexivity.
    - rewrite V0. rewrite Forall_forall in Hv. apply Hv. eapply nth_error_In; eassumption. }
  destruct (handle_flags _ _ _ S0) as (t0 & H0 & T0). destruct (handle_flags _ _ _ S1) as (t1 & H1 & T1).
  exists t0, t1. split; [|split; assumption].
  unfold drv_run_flp_queries. rewrite HL. cbn [bind]. apply call2_done_ret. eauto.
Qed.

Lemma existsb_fuel fuel : existsb e_ok L = true -> length L <= fuel -> 1 <= fuel.
Proof. destruct L; [discriminate|cbn; lia]. Qed.

Lemma frontier_nonempty thr l : (exists p, length p = l /\ heavy thr L p = true) -> frontier_at thr L l <> [].
Proof.
  intros (p & Hp & Hh). destruct l as [|l]; [discriminate|]. intros Hc. assert (Hin : In p (frontier_at thr L (S l))).
  { unfold frontier_at. apply filter_In. split; [apply all_paths_length; exact Hp|exact Hh]. }
  rewrite Hc in Hin. destruct Hin.
Qed.

Lemma run_whh_ok fuel s0 s1 : uploaded true len bits vk (map e_r0 L) s0 -> uploaded false len bits vk (map e_r1 L) s1 ->
  cfg_bits cfg = Some bits -> 1 <= bits -> length L <= fuel ->
  (2 <= bits -> existsb e_ok L = true /\ Forall (fun e => report_verdict E len vk (e_r0 e) (e_r1 e) (e_ok e)) L) ->
  (bits = 1 -> forallb e_ok L = true) ->
  (forall l, 1 <= l -> l + 1 < bits -> exists p, length p = l /\ heavy (threshold cfg) L p = true) ->
  exists t0 t1, run_whh fuel E cfg s0 s1 (length L) = Ret (t0, t1, map (exact_result L len) (filter (heavy (threshold cfg) L) (all_paths bits))).
Proof.
  intros U0 U1 Hcb Hb Hf Hv H1 Hlv. destruct (allowed_defined [] ltac:(cbn; lia)) as [D0 D1].
  destruct (handle_init _ _ _ U0 D0) as (i0 & HI0 & S0 & V0). destruct (handle_init _ _ _ U1 D1) as (i1 & HI1 & S1 & V1).
  unfold run_whh. rewrite (proj2 (call2_done_ret _ _ _ _ _ i0 i1)) by eauto. cbn [bind]. rewrite Hcb. cbn [unwrap bind].
  rewrite (proj2 (Nat.eqb_neq bits 0)) by lia.
  assert (Hlast : forall level t0 t1, pair_inv E len bits L (frontier_at (threshold cfg) L level) t0 t1 -> S level = bits ->
    exists u0 u1, run_level_last fuel E cfg t0 t1 (length L) = Ret (u0, u1, map (exact_result L len) (filter (heavy (threshold cfg) L) (all_paths bits)))).
  { intros level t0 t1 Hi Hlb. destruct (last_step E Hok len bits L Hgood Hn cfg Hcfg fuel (length L) _ t0 t1 Hi Hbatch Hf) as (u0 & u1 & Hu).
    - intros p Hp. apply frontier_length in Hp. lia.
    - exists u0, u1. rewrite Hu, frontier_next, Hlb. destruct bits; [lia|reflexivity]. }
  destruct bits as [|[|k]] eqn:Hbits; [lia| |].
  - cbn [Nat.sub levels_loop bind]. apply (Hlast 0); [|reflexivity]. specialize (H1 eq_refl).
    assert (He : forall r : entry -> report_share, map (fun e => (e_ok e, r e)) L = allowed r).
    { intros r. unfold allowed. apply map_ext_in. intros e He. rewrite forallb_forall in H1. rewrite (H1 e He). reflexivity. }
    unfold pair_inv, held0, held1. rewrite !He. split; assumption.
  - rewrite <- Hbits in *. clear H1. destruct (Hv ltac:(lia)) as [Hex Hver].
    replace (bits - 1) with (S (bits - 2)) by lia. cbn [levels_loop].
    destruct (flp_run fuel i0 i1 S0 S1 V0 V1 Hf Hb Hver) as (t0 & t1 & Ht & Hi). rewrite Ht. cbn [bind].
    assert (Hf1 : 1 <= fuel) by (apply existsb_fuel; assumption).
    destruct (level_step E Hok len bits L Hgood Hn fuel cfg (length L) [[]] 0 t0 t1 Hi) as (u0 & u1 & Hu & Hiu); try assumption; try lia.
    { discriminate. } { intros p [<-|[]]. reflexivity. }
    rewrite Hu. cbn [bind]. change [[]] with (frontier_at (threshold cfg) L 0) in Hiu. rewrite frontier_next in Hiu.
    destruct (levels_run E Hok len bits L Hgood Hn cfg Hcfg fuel (length L) Hf1 Hex (bits - 2) 1 u0 u1 Hiu) as (w0 & w1 & Hw & Hiw).
    { lia. } { intros l Hl. apply frontier_nonempty. apply Hlv; lia. }
    rewrite Hw. cbn [bind]. apply (Hlast (1 + (bits - 2))); [exact Hiw|lia].
Qed.

(** *** no heavy prefix *)
Lemma fronts_nil reps f : fronts E len reps [] f -> f = [].
Proof. intros H. inversion H. reflexivity. Qed.
Lemma levels_run_empty fuel n : 1 <= fuel -> existsb e_ok L = true -> forall k level s0 s1, pair_inv E len bits L (frontier_at (threshold cfg) L level) s0 s1 -> level + k <= bits ->
  (exists l, level <= l < level + k /\ frontier_at (threshold cfg) L l = []) -> levels_loop fuel E cfg s0 s1 n false k = Panic PIndex.
Proof.
  intros Hf Hex. induction k as [|k IH]; intros level s0 s1 Hi Hk (l & Hl & He); [lia|]. cbn [levels_loop bind].
  destruct (frontier_at (threshold cfg) L level) as [|p ps] eqn:Hfr.
  - destruct Hi as [(P0 & _ & _ & _ & _ & F0) _]. rewrite (empty_frontier_level fuel E cfg s0 s1 n P0 (fronts_nil _ _ F0)) by lia. reflexivity.
  - assert (Hne : level <> l) by congruence. rewrite <- Hfr in Hi.
    destruct (level_step E Hok len bits L Hgood Hn fuel cfg n (frontier_at (threshold cfg) L level) level s0 s1 Hi) as (t0 & t1 & Hr & Hi'); try assumption.
    + rewrite Hfr. discriminate.
    + apply frontier_length.
    + lia.
    + rewrite Hr. cbn [bind]. rewrite frontier_next in Hi'. apply (IH (S level) t0 t1 Hi'); [lia|]. exists l. split; [lia|exact He].
Qed.

Lemma frontier_empty thr l : 1 <= l -> (forall p, length p = l -> heavy thr L p = false) -> frontier_at thr L l = [].
Proof.
  intros Hl H. destruct l as [|l]; [lia|]. unfold frontier_at. assert (Hall : forall ps, (forall p, In p ps -> heavy thr L p = false) -> filter (heavy thr L) ps = []).
  { induction ps as [|p ps IH]; intros Hp; [reflexivity|]. cbn [filter]. rewrite (Hp p (or_introl eq_refl)). apply IH. intros; apply Hp; right; assumption. }
  apply Hall. intros p Hp. apply H. apply all_paths_length. exact Hp.
Qed.

Lemma run_whh_empty fuel s0 s1 l : uploaded true len bits vk (map e_r0 L) s0 -> uploaded false len bits vk (map e_r1 L) s1 ->
  cfg_bits cfg = Some bits -> length L <= fuel -> existsb e_ok L = true ->
  Forall (fun e => report_verdict E len vk (e_r0 e) (e_r1 e) (e_ok e)) L ->
  1 <= l -> l + 1 < bits -> (forall p, length p = l -> heavy (threshold cfg) L p = false) ->
  run_whh fuel E cfg s0 s1 (length L) = Panic PIndex.
Proof.
  intros U0 U1 Hcb Hf Hex Hver Hl1 Hl2 Hempty. destruct (allowed_defined [] ltac:(cbn; lia)) as [D0 D1].
  destruct (handle_init _ _ _ U0 D0) as (i0 & HI0 & S0 & V0). destruct (handle_init _ _ _ U1 D1) as (i1 & HI1 & S1 & V1).
  unfold run_whh. rewrite (proj2 (call2_done_ret _ _ _ _ _ i0 i1)) by eauto. cbn [bind]. rewrite Hcb. cbn [unwrap bind].
  rewrite (proj2 (Nat.eqb_neq bits 0)) by lia.
  replace (bits - 1) with (S (bits - 2)) by lia. cbn [levels_loop].
  destruct (flp_run fuel i0 i1 S0 S1 V0 V1 Hf ltac:(lia) Hver) as (t0 & t1 & Ht & Hi). rewrite Ht. cbn [bind].
  assert (Hf1 : 1 <= fuel) by (apply existsb_fuel; assumption).
  destruct (level_step E Hok len bits L Hgood Hn fuel cfg (length L) [[]] 0 t0 t1 Hi) as (u0 & u1 & Hu & Hiu); try assumption; try lia.
  { discriminate. } { intros p [<-|[]]. reflexivity. }
  rewrite Hu. cbn [bind]. change [[]] with (frontier_at (threshold cfg) L 0) in Hiu. rewrite frontier_next in Hiu.
  rewrite (levels_run_empty fuel (length L) Hf1 Hex (bits - 2) 1 u0 u1 Hiu); [reflexivity|lia|].
  exists l. split; [lia|]. apply frontier_empty; assumption.
Qed.
End Run.
