(** Proofs for C66. *)
From Verif Require Import Base BaseFacts Field Util UtilFacts Env Prg Vidpf SpecVidpf SpecTree VidpfFacts VidpfTreeFacts VidpfTreeFacts3 Merkle Collect Server Driver SpecCollect SpecServer SpecDriver SpecCheck SpecLevel SpecWhh
  CollectFacts CollectInv ServerFacts DriverFacts DriverPropFacts MerkleFacts LevelFacts PairFacts WhhFacts WhhFacts2 FlpFacts WhhFacts3 SpecFlood FloodFacts SpecSpy.
From Coq Require Import Lia.

Lemma combine_map_both {A B C D} (f : A -> C) (g : B -> D) : forall l l', combine (map f l) (map g l') = map (fun ab => (f (fst ab), g (snd ab))) (combine l l').
Proof. induction l as [|x l IH]; intros [|y l']; cbn; try reflexivity. rewrite IH. reflexivity. Qed.
Lemma snd_combine {A B} (l : list A) : forall (l' : list B), length l = length l' -> map snd (combine l l') = l'.
Proof. induction l as [|x l IH]; intros [|y l'] H; try discriminate; [reflexivity|]. cbn. rewrite IH by (cbn in H; lia). reflexivity. Qed.
Lemma nth_seq {A} (l : list A) d : map (fun j => nth j l d) (seq 0 (length l)) = l.
Proof. induction l as [|x l IH]; [reflexivity|]. cbn [length seq map nth]. rewrite <- seq_shift, map_map. cbn [nth]. rewrite IH. reflexivity. Qed.

(** *** only one report left *)
Definition only (i : nat) (L : list entry) : list entry :=
  map (fun je => {| e_ok := e_ok (snd je) && (fst je =? i); e_r0 := e_r0 (snd je); e_r1 := e_r1 (snd je); e_alpha := e_alpha (snd je); e_beta := e_beta (snd je) |}) (combine (seq 0 (length L)) L).

Definition only_from (a i : nat) (L : list entry) : list entry :=
  map (fun je => {| e_ok := e_ok (snd je) && (fst je =? i); e_r0 := e_r0 (snd je); e_r1 := e_r1 (snd je); e_alpha := e_alpha (snd je); e_beta := e_beta (snd je) |}) (combine (seq a (length L)) L).
Lemma only_length i L : length (only i L) = length L.
Proof. unfold only. rewrite map_length, combine_length, seq_length. lia. Qed.

Lemma only_none p i : forall L a, i < a -> supporters (only_from a i L) p = [].
Proof.
  induction L as [|e L IH]; intros a Ha; [reflexivity|]. unfold only_from. cbn [length seq combine map]. unfold supporters. cbn [filter e_ok fst snd e_alpha].
  rewrite (proj2 (Nat.eqb_neq a i)) by lia. rewrite andb_false_r. cbn [andb]. apply (IH (S a)). lia.
Qed.
Lemma only_supporters p i : forall L a e, a <= i -> nth_error L (i - a) = Some e -> e_ok e = true ->
  exists e', e_alpha e' = e_alpha e /\ e_beta e' = e_beta e /\ supporters (only_from a i L) p = if is_prefix p (e_alpha e) then [e'] else [].
Proof.
  induction L as [|x L IH]; intros a e Ha Hn He; [destruct (i - a); discriminate|].
  destruct (Nat.eq_dec a i) as [->|Hne].
  - rewrite Nat.sub_diag in Hn. cbn in Hn. assert (x = e) by congruence. subst x.
    eexists {| e_ok := true; e_r0 := e_r0 e; e_r1 := e_r1 e; e_alpha := e_alpha e; e_beta := e_beta e |}. split; [reflexivity|]. split; [reflexivity|].
    unfold only_from. cbn [length seq combine map]. unfold supporters. cbn [filter e_ok fst snd e_alpha]. rewrite He, Nat.eqb_refl. cbn [andb].
    change (filter _ (map _ (combine (seq (S i) (length L)) L))) with (supporters (only_from (S i) i L) p). rewrite only_none by lia.
    destruct (is_prefix p (e_alpha e)); reflexivity.
  - replace (i - a) with (S (i - S a)) in Hn by lia. destruct (IH (S a) e ltac:(lia) Hn He) as (e' & A & B & C). exists e'. split; [exact A|]. split; [exact B|].
    rewrite <- C. unfold only_from, supporters. cbn [length seq combine map filter e_ok fst snd e_alpha]. rewrite (proj2 (Nat.eqb_neq a i)) by lia. rewrite andb_false_r. reflexivity.
Qed.

Lemma filter_single {A} (f : A -> bool) x : forall l, NoDup l -> In x l -> f x = true -> (forall y, In y l -> f y = true -> y = x) -> filter f l = [x].
Proof.
  induction l as [|y l IH]; intros Hnd Hin Hx Hu; [destruct Hin|]. inversion Hnd as [|? ? Hni Hnd']; subst. cbn [filter].
  destruct (f y) eqn:Hy.
  - assert (y = x) by (apply Hu; [left; reflexivity|exact Hy]). subst y. f_equal.
    assert (Hn : forall l', (forall z, In z l' -> f z = false) -> filter f l' = []). { induction l' as [|z l' IH']; intros Hz; [reflexivity|]. cbn [filter]. rewrite (Hz z (or_introl eq_refl)). apply IH'. intros; apply Hz; right; assumption. }
    apply Hn. intros z Hz. destruct (f z) eqn:Ez; [|reflexivity]. assert (z = x) by (apply Hu; [right; exact Hz|exact Ez]). subst. contradiction.
  - destruct Hin as [->|Hin]; [congruence|]. apply IH; [exact Hnd'|exact Hin|exact Hx|]. intros z Hz. apply Hu. right. exact Hz.
Qed.
Lemma prefix_full p a : is_prefix p a = true -> length p = length a -> p = a.
Proof.
  revert a. induction p as [|x p IH]; intros [|y a] H Hl; try discriminate; [reflexivity|]. cbn in H. apply andb_prop in H. destruct H as [H1 H2].
  apply eqb_prop in H1. subst. f_equal. apply IH; [exact H2|]. cbn in Hl. lia.
Qed.
Lemma firstn_is_prefix l (a : list bool) : is_prefix (firstn l a) a = true.
Proof. revert l. induction a as [|x a IH]; intros [|l]; try reflexivity. cbn. rewrite eqb_reflx. apply IH. Qed.

Section Spy.
Variable E : env.
Hypothesis Hok : env_ok E.
Variables (len bits : nat) (L : list entry) (i : nat) (e : entry).
Hypothesis Hwf : Forall (fun e => well_formed bits (e_r0 e) /\ well_formed bits (e_r1 e)) L.
Hypothesis Hi : nth_error L i = Some e.
Hypothesis He : e_ok e = true.
Hypothesis Hh : honest_keys E (key_of (e_r0 e)) (key_of (e_r1 e)) (e_alpha e) (e_beta e).
Hypothesis Ha : length (e_alpha e) = bits.
Hypothesis Hb : length (e_beta e) = len.

Lemma only_good : Forall (good_entry E len bits) (only i L).
Proof.
  clear Hok.
  apply Forall_forall. intros x Hx. apply in_map_iff in Hx. destruct Hx as ((j & y) & <- & Hin). cbn [fst snd].
  apply In_nth_error in Hin. destruct Hin as (k & Hk). rewrite nth_error_combine in Hk.
  destruct (nth_error (seq 0 (length L)) k) as [j'|] eqn:Hj; [|discriminate]. destruct (nth_error L k) as [y'|] eqn:Hy; [|discriminate]. injection Hk as -> ->.
  assert (Hkl : k < length L) by (apply nth_error_Some; congruence). rewrite nth_error_seq in Hj by exact Hkl. injection Hj as <-.
  assert (Hw : well_formed bits (e_r0 y) /\ well_formed bits (e_r1 y)) by (rewrite Forall_forall in Hwf; apply Hwf; eapply nth_error_In; exact Hy).
  unfold good_entry. cbn [e_ok e_r0 e_r1 e_alpha e_beta]. split; [apply Hw|]. split; [apply Hw|]. intros Hf. apply andb_prop in Hf. destruct Hf as [_ Hf]. apply Nat.eqb_eq in Hf. cbn [Nat.add] in Hf. subst k.
  assert (y = e) by congruence. subst y. auto.
Qed.
Lemma only_count p : count (only i L) p = if is_prefix p (e_alpha e) then 1%Z else 0%Z.
Proof.
  clear Hok Hwf Hh Ha Hb. unfold count. destruct (only_supporters p i L 0 e ltac:(lia)) as (e' & _ & _ & Hs); [rewrite Nat.sub_0_r; exact Hi|exact He|].
  change (only i L) with (only_from 0 i L). rewrite Hs. destruct (is_prefix p (e_alpha e)); reflexivity.
Qed.
Lemma only_weight j : weight (only i L) (e_alpha e) j = nth j (e_beta e) (of_Z 0).
Proof.
  clear Hok Hwf Hh Ha Hb. unfold weight. destruct (only_supporters (e_alpha e) i L 0 e ltac:(lia)) as (e' & _ & Hbe & Hs); [rewrite Nat.sub_0_r; exact Hi|exact He|].
  change (only i L) with (only_from 0 i L). rewrite Hs. assert (Hp : is_prefix (e_alpha e) (e_alpha e) = true) by (rewrite <- (firstn_all (e_alpha e)) at 1; apply firstn_is_prefix).
  rewrite Hp. cbn [map fsum]. rewrite Hbe. change (of_Z 0) with fzero. ring.
Qed.
Lemma only_exists : existsb e_ok (only i L) = true.
Proof.
  clear Hok Hwf Hh Ha Hb. apply existsb_exists. exists {| e_ok := e_ok e && (i =? i); e_r0 := e_r0 e; e_r1 := e_r1 e; e_alpha := e_alpha e; e_beta := e_beta e |}. split.
  - apply in_map_iff. exists (i, e). split; [reflexivity|]. apply (nth_error_In _ i). rewrite nth_error_combine, Hi.
    assert (Hil : i < length L) by (apply nth_error_Some; congruence). rewrite nth_error_seq by exact Hil. reflexivity.
  - cbn [e_ok]. rewrite He, Nat.eqb_refl. reflexivity.
Qed.

Lemma only_heavy : filter (heavy 1 (only i L)) (all_paths bits) = [e_alpha e].
Proof.
  clear Hok Hwf Hh Hb. apply filter_single.
  - apply all_paths_nodup.
  - apply all_paths_length. exact Ha.
  - unfold heavy. rewrite only_count. assert (Hp : is_prefix (e_alpha e) (e_alpha e) = true) by (rewrite <- (firstn_all (e_alpha e)) at 1; apply firstn_is_prefix). rewrite Hp. reflexivity.
  - intros p Hin Hp. apply all_paths_length in Hin. unfold heavy in Hp. rewrite only_count in Hp. destruct (is_prefix p (e_alpha e)) eqn:Hpr; [|discriminate]. apply prefix_full; [exact Hpr|congruence].
Qed.

Lemma holding_init first (r : entry -> report_share) s : holding first len bits (map (fun e => (e_ok e, r e)) L) s -> (forall e, In e L -> well_formed bits (r e)) ->
  exists t, handle E s QTreeInit = (t, Ret ADone) /\ side E len bits first (map (fun e => (e_ok e, r e)) L) [[]] t.
Proof.
  clear Hok Hwf Hi He Hh Ha Hb.
  intros (H1 & H2 & H3 & H4 & H6) Hd.
  destruct (tree_init_ret E (s_coll s)) as (f & Hi & Hf).
  { rewrite H6. intros h x Hin. apply in_map_iff in Hin. destruct Hin as (y & Hy & Hin). injection Hy as <- <-. destruct (Hd y Hin) as (nn & k & pf & jr & -> & _). reflexivity. }
  exists (set_coll s (set_frontier (s_coll s) f)). split.
  - apply handle_ret. split; [reflexivity|]. split; [exact H1|]. eexists. split; [|reflexivity]. cbn [body]. rewrite Hi. reflexivity.
  - unfold side. cbn. rewrite H3, H6 in Hf. repeat (split; [assumption|]). exact Hf.
Qed.
Lemma mark_only (r : entry -> report_share) (r' : entry -> report_share) : (forall b x, r' {| e_ok := b; e_r0 := e_r0 x; e_r1 := e_r1 x; e_alpha := e_alpha x; e_beta := e_beta x |} = r x) ->
  mark (map (fun j => j =? i) (seq 0 (length L))) (map (fun e => (e_ok e, r e)) L) = map (fun e => (e_ok e, r' e)) (only i L).
Proof.
  clear Hok Hwf Hi He Hh Ha Hb. intros Hr.
  unfold mark, only. rewrite combine_map_both, !map_map. apply map_ext. intros [j x]. cbn [fst snd e_ok]. rewrite Hr. reflexivity.
Qed.
Lemma only_flags first (r : entry -> report_share) s : side E len bits first (map (fun e => (e_ok e, r e)) L) [[]] s -> (forall b x, r {| e_ok := b; e_r0 := e_r0 x; e_r1 := e_r1 x; e_alpha := e_alpha x; e_beta := e_beta x |} = r x) ->
  exists t, handle E s (QApplyFlpResults (map (fun j => j =? i) (seq 0 (length L)))) = (t, Ret ADone) /\ side E len bits first (map (fun e => (e_ok e, r e)) (only i L)) [[]] t.
Proof.
  clear Hok Hwf Hi He Hh Ha Hb.
  intros (H1 & H2 & H3 & H4 & H5 & H6) Hr. eexists. split.
  - apply handle_ret. split; [reflexivity|]. split; [exact H1|]. eexists. split; [|reflexivity]. cbn [body].
    rewrite apply_flp_results_spec, H5, !map_length, seq_length, Nat.eqb_refl. cbn [bind]. rewrite (mark_only r r Hr). reflexivity.
  - unfold side. cbn. repeat (split; [assumption || reflexivity|]). eapply fronts_same; [|exact H6].
    unfold same_shares, only. rewrite !map_map. cbn [snd]. rewrite (map_ext _ (fun je => r (snd je))) by (intros [j x]; apply Hr).
    rewrite <- (map_map snd r), snd_combine by (rewrite seq_length; lia). reflexivity.
Qed.

Lemma spy_lemma cfg fuel s0 s1 : cfg_hist cfg = len -> cfg_bits cfg = Some bits -> 0 < cfg_query_batch cfg -> (cfg_thr cfg <= 1)%Z -> 1 <= bits -> length L <= fuel ->
  (Z.of_nat (length L) < 2 ^ 64)%Z -> holding true len bits (held0 L) s0 -> holding false len bits (held1 L) s1 ->
  exists t0 t1, spy fuel E cfg (length L) i s0 s1 = Ret (t0, t1, [{| res_path := e_alpha e; res_value := e_beta e ++ [of_Z 1] |}]).
Proof.
  intros Hcfg Hbits Hq Hthr Hb1 Hf Hn H0 H1.
  assert (Ht : threshold cfg = 1%Z) by (unfold threshold; lia).
  destruct (holding_init true e_r0 s0 H0) as (u0 & I0 & S0). { intros x Hx. rewrite Forall_forall in Hwf. apply (Hwf x Hx). }
  destruct (holding_init false e_r1 s1 H1) as (u1 & I1 & S1). { intros x Hx. rewrite Forall_forall in Hwf. apply (Hwf x Hx). }
  destruct (only_flags true e_r0 u0 S0 ltac:(reflexivity)) as (w0 & F0 & W0). destruct (only_flags false e_r1 u1 S1 ltac:(reflexivity)) as (w1 & F1 & W1).
  pose proof only_good as Hgood. pose proof only_exists as Hex.
  assert (HnL : (Z.of_nat (length (only i L)) < 2 ^ 64)%Z) by (rewrite only_length; exact Hn).
  assert (Hf1 : 1 <= fuel) by (destruct L; [destruct i; discriminate|cbn [length] in Hf; lia]).
  unfold spy. rewrite (proj2 (call2_done_ret _ _ _ _ _ u0 u1)) by eauto. cbn [bind].
  rewrite (proj2 (call2_done_ret _ _ _ _ _ w0 w1)) by eauto. cbn [bind]. rewrite Hbits. cbn [unwrap bind].
  assert (Hinv : pair_inv E len bits (only i L) (frontier_at (threshold cfg) (only i L) 0) w0 w1) by (split; assumption).
  destruct (levels_run E Hok len bits (only i L) Hgood HnL cfg Hcfg fuel (length L) Hf1 Hex (bits - 1) 0 w0 w1 Hinv) as (x0 & x1 & Hx & Hix).
  { lia. }
  { intros l Hl. apply frontier_nonempty. exists (firstn l (e_alpha e)). split; [apply firstn_length_le; lia|].
    unfold heavy. rewrite only_count, firstn_is_prefix, Ht. reflexivity. }
  rewrite Hx. cbn [bind].
  destruct (last_step E Hok len bits (only i L) Hgood HnL cfg Hcfg fuel (length L) _ x0 x1 Hix Hq Hf) as (t0 & t1 & Hl).
  { intros p Hp. apply frontier_length in Hp. lia. }
  exists t0, t1. rewrite Hl, frontier_next. replace (S (0 + (bits - 1))) with bits by lia. destruct bits as [|b] eqn:Eb; [lia|]. cbn [frontier_at].
  rewrite <- Eb in *. rewrite Ht, only_heavy. cbn [map]. unfold exact_result.
  rewrite (map_ext _ (fun j => nth j (e_beta e) (of_Z 0))) by (intros; apply only_weight). rewrite <- Hb, nth_seq.
  rewrite only_count. assert (Hp : is_prefix (e_alpha e) (e_alpha e) = true) by (rewrite <- (firstn_all (e_alpha e)) at 1; apply firstn_is_prefix). rewrite Hp. reflexivity.
Qed.
End Spy.

(** *** what the honest driver sees *)
Lemma combine_two {A B C} (f : A -> B) (g : A -> C) l : combine (map f l) (map g l) = map (fun a => (f a, g a)) l.
Proof. induction l as [|x l IH]; [reflexivity|]. cbn. rewrite IH. reflexivity. Qed.
Lemma crawl_view E len bits L paths level s0 s1 : env_ok E -> Forall (good_entry E len bits) L -> existsb e_ok L = true ->
  pair_inv E len bits L paths s0 s1 -> paths <> [] -> (forall p, In p paths -> length p = level) -> level < bits ->
  exists ss v0 v1 root, ask_servers E (s0, s1) 1 [] false = Ret (ss, (v0, [root], [0]), (v1, [root], [0])) /\
    seen len v0 v1 = map (totals L len) (children paths).
Proof.
  intros Hok Hgood Hex [H0 H1] Hne Hp Hl.
  assert (Hd0 : forall p, length p <= bits -> defined_at E len (held0 L) p) by (intros p Hpl; apply (good_defined E Hok len bits L Hgood p Hpl)).
  assert (Hd1 : forall p, length p <= bits -> defined_at E len (held1 L) p) by (intros p Hpl; apply (good_defined E Hok len bits L Hgood p Hpl)).
  pose proof (strings_equal E Hok len bits L Hgood level paths Hp Hl) as Hstr.
  pose proof (strings_nonempty E len L true level paths e_r0 Hex) as Hsne. fold (held0 L) in Hsne.
  assert (Hm : exists root, merkle_part E (strings_of E true len level paths (held0 L)) 1 [] false = Ret ([root], [0])).
  { rewrite merkle_one by exact Hsne. set (hs := strings_of E true len level paths (held0 L)) in *.
    destruct (merkle_root_some E (firstn (2 ^ clog2f E (length hs)) hs)) as [root Hr].
    - pose proof (pow2_ge1 (clog2f E (length hs))). destruct (2 ^ clog2f E (length hs)); [lia|]. destruct hs; [contradiction|discriminate].
    - rewrite Hr. cbn [unwrap bind]. eauto. }
  destruct Hm as [root Hm0]. pose proof Hm0 as Hm1. rewrite Hstr in Hm1.
  pose proof (handle_crawl E len bits L true (held0 L) paths level s0 _ 1 H0 Hne Hp Hd0 Hl Hm0) as HC0.
  pose proof (handle_crawl E len bits L false (held1 L) paths level s1 _ 1 H1 Hne Hp Hd1 Hl Hm1) as HC1.
  cbn [fst snd] in HC0, HC1. eexists _, _, _, root. split.
  - unfold ask_servers. cbn [fst snd]. rewrite (proj2 (call2_ret _ _ _ _ _ _ _ _ _) (conj HC0 HC1)). cbn [bind]. reflexivity.
  - unfold seen. rewrite !map_map, combine_two, map_map. apply map_ext_in. intros q Hq. cbn [fst snd mknode tn_value].
    apply children_in in Hq. destruct Hq as (p & d & Hin & ->). unfold totals.
    apply (exact_value E Hok len bits L Hgood {| cfg_bits := None; cfg_hist := len; cfg_add_batch := 0; cfg_query_batch := 0; cfg_thr := 0 |} eq_refl).
    + destruct p; discriminate.
    + rewrite app_length, (Hp _ Hin). cbn. lia.
Qed.

(** the state after the FLP check and k levels *)
Lemma reached_lemma E len bits L vk fuel cfg s0 s1 k :
  env_ok E -> Forall (good_entry E len bits) L -> (Z.of_nat (length L) < 2 ^ 64)%Z -> cfg_hist cfg = len -> 0 < cfg_query_batch cfg -> k < bits -> length L <= fuel ->
  uploaded true len bits vk (map e_r0 L) s0 -> uploaded false len bits vk (map e_r1 L) s1 ->
  existsb e_ok L = true -> Forall (fun e => report_verdict E len vk (e_r0 e) (e_r1 e) (e_ok e)) L ->
  (forall l, 1 <= l <= k -> exists p, length p = l /\ heavy (threshold cfg) L p = true) ->
  exists t0 t1, levels_done fuel E cfg (length L) k s0 s1 = Ret (t0, t1) /\ pair_inv E len bits L (frontier_at (threshold cfg) L k) t0 t1.
Proof.
  intros Hok Hgood Hn Hcfg Hbatch Hk Hf U0 U1 Hex Hver Hlv.
  destruct (allowed_defined E Hok len bits L Hgood [] ltac:(cbn; lia)) as [D0 D1].
  destruct (handle_init E len bits L vk _ _ _ U0 D0) as (i0 & HI0 & S0 & V0). destruct (handle_init E len bits L vk _ _ _ U1 D1) as (i1 & HI1 & S1 & V1).
  unfold levels_done. rewrite (proj2 (call2_done_ret _ _ _ _ _ i0 i1)) by eauto. cbn [bind].
  destruct (flp_run E Hok len bits L vk Hgood cfg Hcfg Hbatch fuel i0 i1 S0 S1 V0 V1 Hf ltac:(lia) Hver) as (w0 & w1 & Ht & Hi).
  rewrite Ht. cbn [bind].
  assert (Hf1 : 1 <= fuel) by (destruct L; [discriminate Hex|cbn [length] in Hf; lia]).
  change [[]] with (frontier_at (threshold cfg) L 0) in Hi.
  apply (levels_run E Hok len bits L Hgood Hn cfg Hcfg fuel (length L) Hf1 Hex k 0 w0 w1 Hi).
  - lia.
  - intros l Hl. destruct (Nat.eq_dec l 0) as [->|Hl0]; [discriminate|]. apply frontier_nonempty. apply Hlv; lia.
Qed.
Lemma view_lemma E len bits L vk fuel cfg s0 s1 k :
  env_ok E -> Forall (good_entry E len bits) L -> (Z.of_nat (length L) < 2 ^ 64)%Z -> cfg_hist cfg = len -> 0 < cfg_query_batch cfg -> k < bits -> length L <= fuel ->
  uploaded true len bits vk (map e_r0 L) s0 -> uploaded false len bits vk (map e_r1 L) s1 ->
  existsb e_ok L = true -> Forall (fun e => report_verdict E len vk (e_r0 e) (e_r1 e) (e_ok e)) L ->
  (forall l, 1 <= l <= k -> exists p, length p = l /\ heavy (threshold cfg) L p = true) ->
  exists t0 t1, levels_done fuel E cfg (length L) k s0 s1 = Ret (t0, t1) /\
    (exists ss v0 v1 root, ask_servers E (t0, t1) 1 [] false = Ret (ss, (v0, [root], [0]), (v1, [root], [0])) /\
      seen len v0 v1 = map (totals L len) (children (heavy_prefixes (threshold cfg) L k))) /\
    (exists u0 u1 v0 v1, call2 E t0 t1 QTreeCrawlLast QTreeCrawlLast = Ret (u0, u1, (AFields v0, AFields v1)) /\
      seen len v0 v1 = map (totals L len) (children (heavy_prefixes (threshold cfg) L k))).
Proof.
  intros Hok Hgood Hn Hcfg Hbatch Hk Hf U0 U1 Hex Hver Hlv.
  destruct (reached_lemma E len bits L vk fuel cfg s0 s1 k Hok Hgood Hn Hcfg Hbatch Hk Hf U0 U1 Hex Hver Hlv) as (w0 & w1 & Hw & Hiw).
  exists w0, w1. split; [exact Hw|]. split.
  - apply (crawl_view E len bits L _ k w0 w1 Hok Hgood Hex Hiw).
    + destruct k; [discriminate|]. apply frontier_nonempty. apply Hlv. lia.
    + apply frontier_length.
    + lia.
  - destruct Hiw as [Y0 Y1].
    assert (Hd0 : forall p, length p <= bits -> defined_at E len (held0 L) p) by (intros p Hpl; apply (good_defined E Hok len bits L Hgood p Hpl)).
    assert (Hd1 : forall p, length p <= bits -> defined_at E len (held1 L) p) by (intros p Hpl; apply (good_defined E Hok len bits L Hgood p Hpl)).
    assert (Hp : forall p, In p (frontier_at (threshold cfg) L k) -> length p < bits) by (intros p Hp; apply frontier_length in Hp; lia).
    destruct (handle_last E len bits L cfg Hcfg _ _ _ _ Y0 Hp Hd0) as (a0 & HA0 & _). destruct (handle_last E len bits L cfg Hcfg _ _ _ _ Y1 Hp Hd1) as (a1 & HA1 & _).
    eexists a0, a1, _, _. split; [apply call2_ret; split; [exact HA0|exact HA1]|].
    unfold seen. rewrite !map_map, combine_two, map_map. apply map_ext_in. intros q Hq. cbn [fst snd mknode tn_value].
    apply children_in in Hq. destruct Hq as (p & d & Hin & ->). unfold totals.
    apply (exact_value E Hok len bits L Hgood {| cfg_bits := None; cfg_hist := len; cfg_add_batch := 0; cfg_query_batch := 0; cfg_thr := 0 |} eq_refl).
    + destruct p; discriminate.
    + specialize (Hp _ Hin). rewrite app_length. cbn. lia.
Qed.

(** *** the last requests of a run leave the reports and their marks alone *)
Definition quiet (q : request) : Prop := match q with QTreeCrawlLast | QGetProofs _ _ | QTreePrune _ | QFinalShares => True | _ => False end.
Lemma quiet_keeps E q s t a first len bits reps : quiet q -> handle E s q = (t, Ret a) -> holding first len bits reps s -> holding first len bits reps t.
Proof.
  intros Hq Hh (H1 & H2 & H3 & H4 & H5). apply handle_ret in Hh. destruct Hh as (_ & _ & c & Hb & ->).
  assert (Hc : c_sid c = c_sid (s_coll s) /\ c_len c = c_len (s_coll s) /\ c_depth c = c_depth (s_coll s) /\ c_reports c = c_reports (s_coll s)).
  { destruct q; try contradiction; cbn [body] in Hb.
    - bret Hb as [c' v] Hx. injection Hb as <- <-. unfold tree_crawl_last in Hx. bret Hx as next Hn. bret Hx as pf Hp. injection Hx as <- <-. repeat split.
    - bret Hb as u Hu. injection Hb as <- <-. repeat split.
    - bret Hb as c' Hx. injection Hb as <- <-. unfold tree_prune in Hx. bret Hx as u Hu. bret Hx as f Hf. injection Hx as <-. repeat split.
    - injection Hb as <- <-. repeat split. }
  destruct Hc as (A & B & C & D). unfold holding. cbn. rewrite A, B, C, D. auto.
Qed.
Lemma quiet_call E q0 q1 s0 s1 t0 t1 a b len bits L : quiet q0 -> quiet q1 -> call2 E s0 s1 q0 q1 = Ret (t0, t1, (a, b)) ->
  holding true len bits (held0 L) s0 /\ holding false len bits (held1 L) s1 -> holding true len bits (held0 L) t0 /\ holding false len bits (held1 L) t1.
Proof. intros Q0 Q1 Hc [H0 H1]. apply call2_ret in Hc. destruct Hc as [C0 C1].
  split; [exact (quiet_keeps E q0 s0 t0 a _ _ _ _ Q0 C0 H0)|exact (quiet_keeps E q1 s1 t1 b _ _ _ _ Q1 C1 H1)].
Qed.
Lemma proofs_keeps E cfg n len bits L : forall fuel start s0 s1 t0 t1, proofs_loop fuel E cfg s0 s1 n start = Ret (t0, t1) ->
  holding true len bits (held0 L) s0 /\ holding false len bits (held1 L) s1 -> holding true len bits (held0 L) t0 /\ holding false len bits (held1 L) t1.
Proof.
  induction fuel as [|fuel IH]; intros start s0 s1 t0 t1 Hp H; cbn [proofs_loop] in Hp.
  - destruct (start <? n); [discriminate|]. injection Hp as <- <-. exact H.
  - destruct (start <? n); [|injection Hp as <- <-; exact H]. bret Hp as [[u0 u1] [a b]] Hc.
    destruct a; try discriminate. destruct b; try discriminate. bret Hp as x Hx. bret Hp as y Hy.
    eapply IH; [exact Hp|]. eapply quiet_call; [| |exact Hc|exact H]; exact I.
Qed.
Lemma last_keeps E cfg fuel n len bits L s0 s1 t0 t1 rs : run_level_last fuel E cfg s0 s1 n = Ret (t0, t1, rs) ->
  holding true len bits (held0 L) s0 /\ holding false len bits (held1 L) s1 -> holding true len bits (held0 L) t0 /\ holding false len bits (held1 L) t1.
Proof.
  intros Hr H. unfold run_level_last in Hr. bret Hr as [[u0 u1] [a b]] Hc. destruct a; try discriminate. destruct b; try discriminate.
  bret Hr as x Hx. bret Hr as keep Hk. bret Hr as [w0 w1] Hp. bret Hr as [x0 x1] Hq. bret Hr as [[y0 y1] [a b]] Hf. destruct a; try discriminate. destruct b; try discriminate.
  bret Hr as res Hres. injection Hr as <- <- <-.
  eapply quiet_call; [| |exact Hf|]; try exact I.
  apply call2_done_ret in Hq. destruct Hq as (ra & rb & Q0 & Q1). eapply quiet_call; [| |apply call2_ret; split; [exact Q0|exact Q1]|]; try exact I.
  eapply proofs_keeps; [exact Hp|]. eapply quiet_call; [| |exact Hc|exact H]; exact I.
Qed.
Lemma side_holding E len bits first reps paths s : side E len bits first reps paths s -> holding first len bits reps s.
Proof. intros (H1 & H2 & H3 & H4 & H5 & H6). unfold holding. auto. Qed.

(** after any completed run every accepted client can be isolated *)
Lemma spy_after E len bits L vk fuel cfg cfg' s0 s1 :
  env_ok E -> Forall (good_entry E len bits) L -> (Z.of_nat (length L) < 2 ^ 64)%Z -> cfg_hist cfg = len -> cfg_bits cfg = Some bits -> 0 < cfg_query_batch cfg -> 2 <= bits -> length L <= fuel ->
  uploaded true len bits vk (map e_r0 L) s0 -> uploaded false len bits vk (map e_r1 L) s1 ->
  existsb e_ok L = true -> Forall (fun e => report_verdict E len vk (e_r0 e) (e_r1 e) (e_ok e)) L ->
  (forall l, 1 <= l < bits -> exists p, length p = l /\ heavy (threshold cfg) L p = true) ->
  cfg_hist cfg' = len -> cfg_bits cfg' = Some bits -> 0 < cfg_query_batch cfg' -> (cfg_thr cfg' <= 1)%Z ->
  exists t0 t1 rs, run_whh fuel E cfg s0 s1 (length L) = Ret (t0, t1, rs) /\
    (forall r, In r rs <-> exists p, length p = bits /\ heavy (threshold cfg) L p = true /\ r = {| res_path := p; res_value := totals L len p |}) /\
    forall i e, nth_error L i = Some e -> e_ok e = true ->
      exists u0 u1, spy fuel E cfg' (length L) i t0 t1 = Ret (u0, u1, [{| res_path := e_alpha e; res_value := e_beta e ++ [of_Z 1] |}]).
Proof.
  intros Hok Hgood Hn Hcfg Hbits Hbatch Hb2 Hf U0 U1 Hex Hver Hlv C1 C2 C3 C4.
  destruct (allowed_defined E Hok len bits L Hgood [] ltac:(cbn; lia)) as [D0 D1].
  destruct (handle_init E len bits L vk _ _ _ U0 D0) as (i0 & HI0 & S0 & V0). destruct (handle_init E len bits L vk _ _ _ U1 D1) as (i1 & HI1 & S1 & V1).
  unfold run_whh. rewrite (proj2 (call2_done_ret _ _ _ _ _ i0 i1)) by eauto. cbn [bind]. rewrite Hbits. cbn [unwrap bind].
  rewrite (proj2 (Nat.eqb_neq bits 0)) by lia. destruct (bits - 1) as [|k] eqn:Ek; [lia|]. cbn [levels_loop].
  destruct (flp_run E Hok len bits L vk Hgood cfg Hcfg Hbatch fuel i0 i1 S0 S1 V0 V1 Hf ltac:(lia) Hver) as (w0 & w1 & Ht & Hi).
  rewrite Ht. cbn [bind].
  assert (Hf1 : 1 <= fuel) by (destruct L; [discriminate Hex|cbn [length] in Hf; lia]).
  change [[]] with (frontier_at (threshold cfg) L 0) in Hi.
  destruct (levels_run E Hok len bits L Hgood Hn cfg Hcfg fuel (length L) Hf1 Hex (S k) 0 w0 w1 Hi) as (x0 & x1 & Hx & Hix).
  { lia. } { intros l Hl. destruct (Nat.eq_dec l 0) as [->|Hl0]; [discriminate|]. apply frontier_nonempty. apply Hlv; lia. }
  cbn [levels_loop] in Hx. cbn [bind] in Hx. rewrite Hx. cbn [bind].
  destruct (last_step E Hok len bits L Hgood Hn cfg Hcfg fuel (length L) _ x0 x1 Hix Hbatch Hf) as (t0 & t1 & Hl).
  { intros p Hp. apply frontier_length in Hp. lia. }
  eexists t0, t1, _. split; [exact Hl|]. rewrite frontier_next. replace (S (0 + S k)) with bits by lia. split.
  - intros r. destruct bits as [|b] eqn:Eb; [lia|]. cbn [frontier_at]. rewrite in_map_iff. split.
    + intros (p & <- & Hp). apply filter_In in Hp. destruct Hp as [Hp1 Hp2]. apply all_paths_length in Hp1. exists p. split; [exact Hp1|]. split; [exact Hp2|]. reflexivity.
    + intros (p & Hp1 & Hp2 & ->). exists p. split; [reflexivity|]. apply filter_In. split; [apply all_paths_length; exact Hp1|exact Hp2].
  - intros i e Hnth He. assert (Hg : good_entry E len bits e) by (rewrite Forall_forall in Hgood; apply Hgood; eapply nth_error_In; exact Hnth).
    destruct Hg as (_ & _ & Hg). destruct (Hg He) as (A & B & C).
    destruct Hix as [Y0 Y1].
    destruct (last_keeps E cfg fuel (length L) len bits L _ _ _ _ _ Hl (conj (side_holding _ _ _ _ _ _ _ Y0) (side_holding _ _ _ _ _ _ _ Y1))) as [T0 T1].
    apply (spy_lemma E Hok len bits L i e); try assumption; try lia.
    apply Forall_forall. intros x Hx'. rewrite Forall_forall in Hgood. destruct (Hgood x Hx') as (W0 & W1 & _). split; assumption.
Qed.
