(** Proofs for C70. *)
From Verif Require Import Base BaseFacts Field Util UtilFacts Env Prg Vidpf SpecVidpf SpecTree VidpfFacts VidpfTreeFacts VidpfTreeFacts3 Merkle Collect Server Driver SpecCollect SpecServer SpecDriver SpecCheck SpecLevel SpecWhh
  CollectFacts CollectInv ServerFacts DriverFacts DriverPropFacts MerkleFacts LevelFacts PairFacts WhhFacts WhhFacts2 FlpFacts WhhFacts3 RefuteFacts WhhMain SpecShift.
From Coq Require Import Lia.

Lemma shifted_nth len d v : len < length v -> nth len (shifted len d v) (of_Z 0) = fadd (nth len v (of_Z 0)) (of_Z d).
Proof. intros H. unfold shifted. rewrite app_nth2, firstn_length_le, Nat.sub_diag by (rewrite ?firstn_length_le; lia). reflexivity. Qed.
Lemma shifted_length len d v : len < length v -> length (shifted len d v) = len + 1.
Proof. intros H. unfold shifted. rewrite app_length, firstn_length_le by lia. reflexivity. Qed.

Lemma flp_loop_thr c E cfg n : forall fuel s0 s1 start keep, flp_loop fuel E (with_threshold c cfg) s0 s1 n start keep = flp_loop fuel E cfg s0 s1 n start keep.
Proof.
  induction fuel as [|fuel IH]; intros s0 s1 start keep; cbn [flp_loop with_threshold cfg_query_batch cfg_hist]; [reflexivity|].
  destruct (start <? n); [|reflexivity]. destruct (call2 E s0 s1 _ _) as [[[t0 t1] [a b]]|]; [|reflexivity]. cbn [bind]. destruct a; try reflexivity. destruct b; try reflexivity.
  destruct (debug_assert (dbg E) _); [|reflexivity]. cbn [bind]. destruct (mapM _ _); [|reflexivity]. cbn [bind]. apply IH.
Qed.
Lemma proofs_loop_thr c E cfg n : forall fuel s0 s1 start, proofs_loop fuel E (with_threshold c cfg) s0 s1 n start = proofs_loop fuel E cfg s0 s1 n start.
Proof.
  induction fuel as [|fuel IH]; intros s0 s1 start; cbn [proofs_loop with_threshold cfg_query_batch cfg_hist]; [reflexivity|].
  destruct (start <? n); [|reflexivity]. destruct (call2 E s0 s1 _ _) as [[[t0 t1] [a b]]|]; [|reflexivity]. cbn [bind]. destruct a; try reflexivity. destruct b; try reflexivity.
  destruct (assert_ _); [|reflexivity]. cbn [bind]. destruct (assert_ _); [|reflexivity]. cbn [bind]. apply IH.
Qed.

Section Shift.
Variable E : env.
Hypothesis Hok : env_ok E.
Variables (len bits : nat) (L : list entry).
Hypothesis Hgood : Forall (good_entry E len bits) L.
Variables (cfg : config) (c : Z).
Hypothesis Hcfg : cfg_hist cfg = len.
Hypothesis Hc : (1 <= c <= threshold cfg)%Z.
Hypothesis Hn : (Z.of_nat (length L) + threshold cfg < 2 ^ 64)%Z.
Let d : Z := (threshold cfg - c)%Z.
Let cfg' : config := with_threshold c cfg.

Lemma thr' : threshold cfg' = c.
Proof. unfold threshold, cfg', with_threshold. cbn. lia. Qed.
Lemma Hn' : (Z.of_nat (length L) < 2 ^ 64)%Z.
Proof. lia. Qed.

Lemma keep_shifted paths : (forall p, In p paths -> p <> [] /\ length p <= bits) ->
  keep_values len (threshold cfg) (map (shifted len d) (map tn_value (map (mknode E len (held0 L)) paths))) (map tn_value (map (mknode E len (held1 L)) paths)) =
  keep_values len (threshold cfg') (map tn_value (map (mknode E len (held0 L)) paths)) (map tn_value (map (mknode E len (held1 L)) paths)).
Proof.
  intros Hp. rewrite (keep_heavy E Hok len bits L Hgood Hn' (threshold cfg')) by exact Hp. rewrite keep_values_total.
  - rewrite !map_map, combine_maps, map_map. f_equal. apply map_ext_in. intros p Hin. cbn [fst snd mknode tn_value]. destruct (Hp _ Hin) as [Hne Hl].
    rewrite shifted_nth by (rewrite sum_honest_length; lia).
    pose proof (val_sum E Hok len bits L Hgood p len Hne Hl (le_n _)) as Hv. unfold val0, val1 in Hv. rewrite Nat.eqb_refl in Hv.
    set (x := nth len (sum_honest (len + 1) (words_of E len (held0 L) p) (held0 L)) (of_Z 0)) in *.
    set (y := nth len (sum_honest (len + 1) (words_of E len (held1 L) p) (held1 L)) (of_Z 0)) in *.
    replace (fadd (fadd x (of_Z d)) y) with (fadd (fadd x y) (of_Z d)) by ring. rewrite Hv.
    assert (Hs : fval (fadd (of_Z (count L p)) (of_Z d)) = (count L p + d)%Z).
    { unfold fadd. rewrite !fval_of_Z. rewrite <- Z.add_mod by discriminate. apply Z.mod_small.
      pose proof (count_range L Hn' p). assert (count L p <= Z.of_nat (length L))%Z. { unfold count, supporters. clear. apply Nat2Z.inj_le. induction L as [|e l IH]; [reflexivity|]. cbn [filter]. destruct (_ && _); cbn [length]; lia. }
      split; [unfold d; lia|]. apply Z.lt_trans with (2 ^ 64)%Z; [unfold d; lia|reflexivity]. }
    rewrite Hs, thr'. unfold heavy. 
    pose proof (count_range L Hn' p). assert (count L p <= Z.of_nat (length L))%Z. { unfold count, supporters. clear. apply Nat2Z.inj_le. induction L as [|e l IH]; [reflexivity|]. cbn [filter]. destruct (_ && _); cbn [length]; lia. }
    rewrite Z.mod_small by (unfold d; lia). unfold d. destruct (Z.leb_spec c (count L p)); [apply Z.leb_le|apply Z.leb_gt]; lia.
  - apply Forall_forall. intros v Hv. rewrite !map_map in Hv. apply in_map_iff in Hv. destruct Hv as (p & <- & _). cbn [mknode tn_value]. rewrite shifted_length; [lia|]. rewrite sum_honest_length. lia.
  - apply Forall_forall. intros v Hv. rewrite map_map in Hv. apply in_map_iff in Hv. destruct Hv as (p & <- & _). cbn. rewrite sum_honest_length. lia.
Qed.

Lemma level_same fuel n paths level s0 s1 : pair_inv E len bits L paths s0 s1 -> paths <> [] -> (forall p, In p paths -> length p = level) -> level < bits ->
  existsb e_ok L = true -> 1 <= fuel -> run_level_shifted d fuel E cfg s0 s1 n = run_level fuel E cfg' s0 s1 n.
Proof.
  intros [H0 H1] Hne Hp Hl Hex Hfuel. destruct fuel as [|fuel]; [lia|].
  assert (Hd0 : forall p, length p <= bits -> defined_at E len (held0 L) p) by (intros p Hpl; apply (good_defined E Hok len bits L Hgood p Hpl)).
  assert (Hd1 : forall p, length p <= bits -> defined_at E len (held1 L) p) by (intros p Hpl; apply (good_defined E Hok len bits L Hgood p Hpl)).
  pose proof (strings_equal E Hok len bits L Hgood level paths Hp Hl) as Hstr.
  pose proof (strings_nonempty E len L true level paths e_r0 Hex) as Hsne. fold (held0 L) in Hsne.
  assert (Hm : exists root, merkle_part E (strings_of E true len level paths (held0 L)) 1 [] false = Ret ([root], [0])).
  { rewrite merkle_one by exact Hsne. set (hs := strings_of E true len level paths (held0 L)) in *.
    destruct (merkle_root_some E (firstn (2 ^ clog2f E (length hs)) hs)) as [root Hr].
    - pose proof (pow2_ge1 (clog2f E (length hs))). destruct (2 ^ clog2f E (length hs)); [lia|]. destruct hs; [contradiction|discriminate].
    - rewrite Hr. cbn [unwrap bind]. eauto. }
  destruct Hm as [root Hm0]. pose proof Hm0 as Hm1. rewrite Hstr in Hm1.
  pose proof (handle_crawl E len bits L true (held0 L) paths level s0 _ 1 H0 Hne Hp Hd0 Hl Hm0) as HC0.
  pose proof (handle_crawl E len bits L false (held1 L) paths level s1 _ 1 H1 Hne Hp Hd1 Hl Hm1) as HC1.
  cbn [fst snd] in HC0, HC1.
  assert (Hch : forall q, In q (children paths) -> q <> [] /\ length q <= bits).
  { intros q Hq. apply children_in in Hq. destruct Hq as (p & b & Hin & ->). split; [destruct p; discriminate|]. rewrite app_length, (Hp _ Hin). cbn. lia. }
  unfold run_level_shifted, run_level. cbn [level_loop]. unfold ask_shifted at 1. unfold ask_servers at 1 2. cbn [fst snd].
  rewrite (proj2 (call2_ret _ _ _ _ _ _ _ _ _) (conj HC0 HC1)). cbn [bind].
  change (cfg_hist cfg') with (cfg_hist cfg). rewrite Hcfg, keep_shifted by exact Hch. rewrite !map_length.
  rewrite (keep_heavy E Hok len bits L Hgood Hn' (threshold cfg')) by exact Hch.
  rewrite (proj2 (assert_true _)) by apply Nat.eqb_refl. cbn [bind length Nat.eqb mismatches seq foldM index nth_error]. rewrite bytes_eqb_refl. reflexivity.
Qed.

Lemma last_same fuel n paths s0 s1 : pair_inv E len bits L paths s0 s1 -> (forall p, In p paths -> length p < bits) ->
  run_last_shifted d fuel E cfg s0 s1 n = run_level_last fuel E cfg' s0 s1 n.
Proof.
  intros [H0 H1] Hp.
  assert (Hd0 : forall p, length p <= bits -> defined_at E len (held0 L) p) by (intros p Hpl; apply (good_defined E Hok len bits L Hgood p Hpl)).
  assert (Hd1 : forall p, length p <= bits -> defined_at E len (held1 L) p) by (intros p Hpl; apply (good_defined E Hok len bits L Hgood p Hpl)).
  assert (Hch : forall q, In q (children paths) -> q <> [] /\ length q <= bits).
  { intros q Hq. apply children_in in Hq. destruct Hq as (p & b & Hin & ->). split; [destruct p; discriminate|]. specialize (Hp _ Hin). rewrite app_length. cbn. lia. }
  destruct (handle_last E len bits L cfg Hcfg _ _ _ _ H0 Hp Hd0) as (a0 & HA0 & _). destruct (handle_last E len bits L cfg Hcfg _ _ _ _ H1 Hp Hd1) as (a1 & HA1 & _).
  unfold run_last_shifted, run_level_last. rewrite (proj2 (call2_ret _ _ _ _ _ _ _ _ _) (conj HA0 HA1)). cbn [bind].
  change (cfg_hist cfg') with (cfg_hist cfg). rewrite Hcfg, keep_shifted by exact Hch. rewrite !map_length.
  destruct (assert_ _); [|reflexivity]. cbn [bind]. rewrite (keep_heavy E Hok len bits L Hgood Hn' (threshold cfg')) by exact Hch. cbn [bind].
  unfold cfg'. rewrite proofs_loop_thr. reflexivity.
Qed.

Lemma levels_same fuel n : 1 <= fuel -> existsb e_ok L = true -> forall k level s0 s1, pair_inv E len bits L (frontier_at c L level) s0 s1 -> level + k <= bits ->
  levels_shifted d fuel E cfg s0 s1 n false k = levels_loop fuel E cfg' s0 s1 n false k.
Proof.
  intros Hf Hex. induction k as [|k IH]; intros level s0 s1 Hi Hk; [reflexivity|]. cbn [levels_shifted levels_loop bind].
  destruct (frontier_at c L level) as [|p ps] eqn:Hfr.
  - destruct Hi as [(P0 & _ & _ & _ & _ & F0) _]. rewrite (empty_frontier_level fuel E cfg' s0 s1 n P0 (fronts_nil _ _ _ _ F0)) by lia. cbn [bind].
    assert (Hs : run_level_shifted d fuel E cfg s0 s1 n = Panic PIndex); [|rewrite Hs; reflexivity].
    destruct fuel as [|fuel]; [lia|]. pose proof (empty_frontier_level (S fuel) E cfg' s0 s1 n P0 (fronts_nil _ _ _ _ F0) ltac:(lia)) as He.
    unfold run_level in He. cbn [level_loop] in He. unfold run_level_shifted. cbn [level_loop]. unfold ask_shifted at 1.
    destruct (ask_servers E (s0, s1) 1 [] false) as [[[ss a0] a1]|pk] eqn:Ha; [|exact He].
    exfalso. clear -Ha P0 F0. unfold ask_servers in Ha. cbn [fst snd] in Ha. bret Ha as [[t0 t1] [x y]] Hca. apply call2_ret in Hca. destruct Hca as [Hca _].
    rewrite (empty_frontier_crawl E s0 1 false P0 (fronts_nil _ _ _ _ F0)) in Hca. discriminate.
  - rewrite <- Hfr in Hi. assert (Hne : frontier_at c L level <> []) by (rewrite Hfr; discriminate).
    assert (Hlen : forall q, In q (frontier_at c L level) -> length q = level) by (intros q Hq; eapply frontier_length, Hq).
    rewrite (level_same fuel n _ level s0 s1 Hi Hne Hlen ltac:(lia) Hex Hf).
    destruct (level_step E Hok len bits L Hgood Hn' fuel cfg' n (frontier_at c L level) level s0 s1 Hi Hne Hlen ltac:(lia) Hex Hf Hcfg) as (t0 & t1 & Hr & Hi').
    rewrite Hr. cbn [bind]. rewrite thr', frontier_next in Hi'. apply (IH (S level)); [exact Hi'|lia].
Qed.

Lemma levels_cases fuel n : 1 <= fuel -> existsb e_ok L = true -> forall k level s0 s1 t0 t1, pair_inv E len bits L (frontier_at c L level) s0 s1 -> level + k <= bits ->
  levels_loop fuel E cfg' s0 s1 n false k = Ret (t0, t1) -> pair_inv E len bits L (frontier_at c L (level + k)) t0 t1.
Proof.
  intros Hf Hex. induction k as [|k IH]; intros level s0 s1 t0 t1 Hi Hk Hr; cbn [levels_loop bind] in Hr.
  - injection Hr as <- <-. rewrite Nat.add_0_r. exact Hi.
  - destruct (frontier_at c L level) as [|p ps] eqn:Hfr.
    + destruct Hi as [(P0 & _ & _ & _ & _ & F0) _]. rewrite (empty_frontier_level fuel E cfg' s0 s1 n P0 (fronts_nil _ _ _ _ F0)) in Hr by lia. discriminate.
    + rewrite <- Hfr in Hi. assert (Hne : frontier_at c L level <> []) by (rewrite Hfr; discriminate).
      assert (Hlen : forall q, In q (frontier_at c L level) -> length q = level) by (intros q Hq; eapply frontier_length, Hq).
      destruct (level_step E Hok len bits L Hgood Hn' fuel cfg' n (frontier_at c L level) level s0 s1 Hi Hne Hlen ltac:(lia) Hex Hf Hcfg) as (u0 & u1 & Hu & Hi').
      rewrite Hu in Hr. cbn [bind] in Hr. rewrite thr', frontier_next in Hi'. rewrite <- Nat.add_succ_comm. apply (IH (S level) u0 u1); [exact Hi'|lia|exact Hr].
Qed.

Variable vk : bytes.
Hypothesis Hbatch : 0 < cfg_query_batch cfg.
Lemma run_same fuel s0 s1 : uploaded true len bits vk (map e_r0 L) s0 -> uploaded false len bits vk (map e_r1 L) s1 ->
  cfg_bits cfg = Some bits -> 1 <= bits -> length L <= fuel ->
  (2 <= bits -> existsb e_ok L = true /\ Forall (fun e => report_verdict E len vk (e_r0 e) (e_r1 e) (e_ok e)) L) ->
  (bits = 1 -> forallb e_ok L = true) ->
  run_shifted d fuel E cfg s0 s1 (length L) = run_whh fuel E cfg' s0 s1 (length L).
Proof.
  intros U0 U1 Hcb Hb Hf Hv H1. destruct (allowed_defined E Hok len bits L Hgood [] ltac:(cbn; lia)) as [D0 D1].
  destruct (handle_init _ _ _ _ _ _ _ _ U0 D0) as (i0 & HI0 & S0 & V0). destruct (handle_init _ _ _ _ _ _ _ _ U1 D1) as (i1 & HI1 & S1 & V1).
  unfold run_shifted, run_whh. rewrite (proj2 (call2_done_ret _ _ _ _ _ i0 i1)) by eauto. cbn [bind]. change (cfg_bits cfg') with (cfg_bits cfg). rewrite Hcb. cbn [unwrap bind].
  rewrite (proj2 (Nat.eqb_neq bits 0)) by lia.
  destruct (Nat.eq_dec bits 1) as [Hbits|Hbits].
  - replace (bits - 1) with 0 by lia. cbn [levels_loop levels_shifted bind]. specialize (H1 Hbits).
    assert (He : forall r : entry -> report_share, map (fun e => (e_ok e, r e)) L = allowed L r).
    { intros r. unfold allowed. apply map_ext_in. intros e He. rewrite forallb_forall in H1. rewrite (H1 e He). reflexivity. }
    apply (last_same fuel (length L) [[]]).
    + unfold pair_inv, held0, held1. rewrite !He. split; assumption.
    + intros p [<-|[]]. cbn. lia.
  - clear H1. destruct (Hv ltac:(lia)) as [Hex Hver].
    replace (bits - 1) with (S (bits - 2)) by lia. cbn [levels_loop levels_shifted].
    destruct (flp_run E Hok len bits L vk Hgood cfg Hcfg Hbatch fuel i0 i1 S0 S1 V0 V1 Hf Hb Hver) as (t0 & t1 & Ht & Hi).
    assert (Ht' : drv_run_flp_queries fuel E cfg' i0 i1 (length L) = Ret (t0, t1)).
    { rewrite <- Ht. unfold drv_run_flp_queries, cfg'. rewrite flp_loop_thr. reflexivity. }
    rewrite Ht, Ht'. cbn [bind].
    assert (Hf1 : 1 <= fuel) by (clear - Hex Hf; destruct L; [discriminate|cbn in Hf; lia]).
    rewrite (level_same fuel (length L) [[]] 0 t0 t1 Hi) by (try assumption; try lia; try discriminate; intros p [<-|[]]; reflexivity).
    destruct (level_step E Hok len bits L Hgood Hn' fuel cfg' (length L) [[]] 0 t0 t1 Hi) as (u0 & u1 & Hu & Hiu); try assumption; try lia.
    { discriminate. } { intros p [<-|[]]. reflexivity. }
    rewrite Hu. cbn [bind]. change [[]] with (frontier_at (threshold cfg') L 0) in Hiu. rewrite frontier_next, thr' in Hiu.
    rewrite (levels_same fuel (length L) Hf1 Hex (bits - 2) 1 u0 u1 Hiu) by lia.
    destruct (levels_loop fuel E cfg' u0 u1 (length L) false (bits - 2)) as [[w0 w1]|] eqn:Hw; [|reflexivity]. cbn [bind].
    apply (last_same fuel (length L) (frontier_at c L (1 + (bits - 2)))); [|intros p Hp; apply frontier_length in Hp; lia].
    apply (levels_cases fuel (length L) Hf1 Hex (bits - 2) 1 u0 u1 w0 w1 Hiu ltac:(lia) Hw).
Qed.
End Shift.

Lemma shift_lemma E len bits L vk fuel cfg c s0 s1 :
  env_ok E -> Forall (good_entry E len bits) L -> (1 <= c <= threshold cfg)%Z -> (Z.of_nat (length L) + threshold cfg < 2 ^ 64)%Z ->
  cfg_hist cfg = len -> cfg_bits cfg = Some bits -> 0 < cfg_query_batch cfg -> 1 <= bits -> length L <= fuel ->
  uploaded true len bits vk (map e_r0 L) s0 -> uploaded false len bits vk (map e_r1 L) s1 ->
  (2 <= bits -> existsb e_ok L = true /\ Forall (fun e => report_verdict E len vk (e_r0 e) (e_r1 e) (e_ok e)) L) ->
  (bits = 1 -> forallb e_ok L = true) ->
  run_shifted (threshold cfg - c) fuel E cfg s0 s1 (length L) = run_whh fuel E (with_threshold c cfg) s0 s1 (length L).
Proof. intros. eapply run_same; eassumption. Qed.

Lemma count_own L e p : In e L -> e_ok e = true -> is_prefix p (e_alpha e) = true -> (1 <= count L p)%Z.
Proof.
  intros Hin He Hp. unfold count. assert (Hs : In e (supporters L p)) by (apply filter_In; rewrite He, Hp; auto).
  destruct (supporters L p); [destruct Hs|]. cbn [length]. lia.
Qed.
Lemma prefix_own l : forall a, is_prefix (firstn l a) a = true.
Proof. induction l as [|l IH]; intros [|b a]; cbn [firstn is_prefix]; try reflexivity. rewrite eqb_reflx, IH. reflexivity. Qed.
Lemma reveal_lemma E len bits L vk fuel cfg s0 s1 :
  env_ok E -> Forall (good_entry E len bits) L -> (Z.of_nat (length L) + threshold cfg < 2 ^ 64)%Z ->
  cfg_hist cfg = len -> cfg_bits cfg = Some bits -> 0 < cfg_query_batch cfg -> 1 <= bits -> length L <= fuel ->
  uploaded true len bits vk (map e_r0 L) s0 -> uploaded false len bits vk (map e_r1 L) s1 ->
  (2 <= bits -> existsb e_ok L = true /\ Forall (fun e => report_verdict E len vk (e_r0 e) (e_r1 e) (e_ok e)) L) ->
  (bits = 1 -> forallb e_ok L = true) ->
  exists t0 t1 rs, run_shifted (threshold cfg - 1) fuel E cfg s0 s1 (length L) = Ret (t0, t1, rs) /\
    forall e, In e L -> e_ok e = true -> In (exact_result L len (e_alpha e)) rs.
Proof.
  intros Hok Hg Hn Hcfg Hcb Hqb Hb Hf U0 U1 Hv H1.
  assert (Ht : (1 <= threshold cfg)%Z) by (unfold threshold; lia).
  rewrite (shift_lemma E len bits L vk fuel cfg 1 s0 s1) by (try assumption; lia).
  assert (Hthr : threshold (with_threshold 1 cfg) = 1%Z) by reflexivity.
  destruct (run_whh_any E len bits L vk fuel (with_threshold 1 cfg) s0 s1) as (t0 & t1 & Hr); try assumption; [lia| |].
  - intros l Hl1 Hl2. destruct (Hv ltac:(lia)) as [Hex _]. apply existsb_exists in Hex. destruct Hex as (e & Hin & He).
    rewrite Forall_forall in Hg. destruct (Hg e Hin) as (_ & _ & Hh). destruct (Hh He) as (_ & Hla & _).
    exists (firstn l (e_alpha e)). split; [rewrite firstn_length_le; lia|]. rewrite Hthr. apply Z.leb_le. apply (count_own L e); [exact Hin|exact He|].
    apply prefix_own.
  - rewrite Hthr in Hr. exists t0, t1. eexists. split; [exact Hr|]. intros e Hin He. apply in_map. apply filter_In.
    rewrite Forall_forall in Hg. destruct (Hg e Hin) as (_ & _ & Hh). destruct (Hh He) as (_ & Hla & _).
    split; [apply all_paths_length; exact Hla|]. apply Z.leb_le. apply (count_own L e); [exact Hin|exact He|].
    rewrite <- (firstn_all (e_alpha e)) at 1. apply prefix_own.
Qed.
