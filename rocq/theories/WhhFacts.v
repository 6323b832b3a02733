(** Complete runs of weighted heavy hitters (C22). *)
From Verif Require Import Base BaseFacts Field Util UtilFacts Env Prg PrgFacts PrgSpecFacts2 Vidpf SpecVidpf SpecTree VidpfFacts VidpfEvalFacts VidpfTreeFacts VidpfTreeFacts3 VidpfTreeFacts4
  Merkle Collect Server Driver SpecCollect SpecServer SpecDriver SpecCheck SpecLevel SpecWhh CollectFacts CollectInv ServerFacts DriverFacts DriverPropFacts RefuteFacts MerkleFacts LevelFacts PairFacts.

(** *** sums over reports *)
Lemma fsum_add {A} (f g : A -> fld) l : fadd (fsum (map f l)) (fsum (map g l)) = fsum (map (fun a => fadd (f a) (g a)) l).
Proof. induction l as [|x l IH]; cbn [map fsum]; [change (of_Z 0) with fzero; ring|]. rewrite <- IH. ring. Qed.
Lemma fsum_ext {A} (f g : A -> fld) l : (forall a, In a l -> f a = g a) -> fsum (map f l) = fsum (map g l).
Proof. intros H. f_equal. apply map_ext_in. exact H. Qed.
Lemma fsum_ones {A} (l : list A) : fsum (map (fun _ => of_Z 1) l) = of_Z (Z.of_nat (length l)).
Proof. induction l as [|x l IH]; [reflexivity|]. cbn [map fsum length]. rewrite IH, Nat2Z.inj_succ, <- Z.add_1_l, of_Z_add. reflexivity. Qed.
Lemma fsum_filter {A} (f : A -> bool) (g : A -> fld) l : fsum (map (fun a => if f a then g a else of_Z 0) l) = fsum (map g (filter f l)).
Proof. induction l as [|x l IH]; [reflexivity|]. cbn [map fsum filter]. rewrite IH. destruct (f x); [reflexivity|]. change (of_Z 0) with fzero. ring. Qed.
Lemma filter_filter {A} (f g : A -> bool) l : filter f (filter g l) = filter (fun a => g a && f a) l.
Proof. induction l as [|x l IH]; [reflexivity|]. cbn [filter]. destruct (g x); cbn [filter andb]; rewrite ?IH; [destruct (f x)|]; reflexivity. Qed.
Lemma select_flags {A B} (f : A -> bool) (g : A -> B) l : select (map f l) (map g l) = map g (filter f l).
Proof. induction l as [|x l IH]; [reflexivity|]. cbn [map select filter]. rewrite IH. destruct (f x); reflexivity. Qed.

Lemma filter_flags (g : entry -> report_share) L : filter (fun hr : bool * report_share => fst hr) (map (fun e => (e_ok e, g e)) L) = map (fun e => (e_ok e, g e)) (filter e_ok L).
Proof. induction L as [|e l IH]; [reflexivity|]. cbn [map filter fst]. rewrite IH. destruct (e_ok e) eqn:He; cbn [map]; rewrite ?He; reflexivity. Qed.

(** *** paths *)
Lemma children_app a b : children (a ++ b) = children a ++ children b.
Proof. unfold children. rewrite map_app, concat_app. reflexivity. Qed.
Lemma children_cons_map d l : children (map (cons d) l) = map (cons d) (children l).
Proof. induction l as [|p l IH]; [reflexivity|]. unfold children in *. cbn [map concat app]. rewrite IH. reflexivity. Qed.
Lemma all_paths_children n : all_paths (S n) = children (all_paths n).
Proof.
  induction n as [|n IH]; [reflexivity|]. change (all_paths (S (S n))) with (map (cons false) (all_paths (S n)) ++ map (cons true) (all_paths (S n))).
  rewrite IH at 1 2. rewrite <- !children_cons_map, <- children_app. reflexivity.
Qed.
Lemma all_paths_length n : forall p, In p (all_paths n) <-> length p = n.
Proof.
  induction n as [|n IH]; intros p; cbn [all_paths].
  - split; [intros [<-|[]]; reflexivity|]. destruct p; [left; reflexivity|discriminate].
  - rewrite in_app_iff, !in_map_iff. split.
    + intros [(q & <- & Hq)|(q & <- & Hq)]; cbn; f_equal; apply IH; exact Hq.
    + destruct p as [|[|] p]; [discriminate| |]; intros H; cbn in H; [right|left]; exists p; (split; [reflexivity|]); apply IH; lia.
Qed.
Lemma all_paths_sorted n : sorted_paths (all_paths n).
Proof.
  induction n as [|n IH]; [cbn; split; [intros q []|exact I]|]. rewrite all_paths_children. unfold children.
  apply (sorted_children n); [intros p Hp; apply all_paths_length; exact Hp|exact IH].
Qed.

Section Run.
Variable E : env.
Hypothesis Hok : env_ok E.
Variables (len bits : nat) (L : list entry).
Hypothesis Hgood : Forall (good_entry E len bits) L.

Lemma good_honest e : In e L -> e_ok e = true -> honest_pair E (key_of (e_r0 e)) (key_of (e_r1 e)) (e_alpha e) (e_beta e) /\ length (e_alpha e) = bits /\ length (e_beta e) = len.
Proof.
  intros Hin Ho. rewrite Forall_forall in Hgood. destruct (Hgood _ Hin) as (_ & _ & H). destruct (H Ho) as ((s0 & s1 & H0 & H1 & Hg) & Ha & Hb).
  split; [apply (gen_honest E s0 s1); assumption|auto].
Qed.
Lemma good_wf : Forall (wf_share bits) (map snd (held0 L)) /\ Forall (wf_share bits) (map snd (held1 L)).
Proof.
  unfold held0, held1. rewrite !map_map. cbn [snd]. split; apply Forall_forall; intros r Hr; apply in_map_iff in Hr; destruct Hr as (e & <- & He);
    rewrite Forall_forall in Hgood; destruct (Hgood _ He) as (H0 & H1 & _); [destruct H0 as (n & k & pr & jr & Heq & Hk & Hw & Hc)|destruct H1 as (n & k & pr & jr & Heq & Hk & Hw & Hc)];
    exists n, k, pr, jr; (split; [exact Heq|]); (split; [exact Hk|auto]).
Qed.
Lemma good_defined p : length p <= bits -> defined_at E len (held0 L) p /\ defined_at E len (held1 L) p.
Proof. intros Hp. destruct good_wf. split; eapply wf_defined; eauto. Qed.

(** *** the value of a node, reconstructed *)
Definition val0 p := sum_honest (len + 1) (words_of E len (held0 L) p) (held0 L).
Definition val1 p := sum_honest (len + 1) (words_of E len (held1 L) p) (held1 L).

Lemma val_sum p j : p <> [] -> length p <= bits -> j <= len ->
  fadd (nth j (val0 p) (of_Z 0)) (nth j (val1 p) (of_Z 0)) = if j =? len then of_Z (count L p) else weight L p j.
Proof.
  intros Hne Hp Hj. unfold val0, val1. rewrite !sum_honest_nth by (try lia; unfold words_of, held0, held1; rewrite !map_length; reflexivity).
  unfold masked_sum, words_of, held0, held1. rewrite !map_map. cbn [fst snd]. rewrite !select_flags, !map_map, fsum_add.
  rewrite (fsum_ext _ (fun e => if is_prefix p (e_alpha e) then nth j (e_beta e ++ [of_Z 1]) (of_Z 0) else of_Z 0)).
  - rewrite fsum_filter, filter_filter. fold (supporters L p). destruct (j =? len) eqn:Hjl.
    + apply Nat.eqb_eq in Hjl. subst j. unfold count. rewrite (fsum_ext _ (fun _ => of_Z 1)).
      * apply fsum_ones.
      * intros e He. apply filter_In in He. destruct He as [He Hb]. apply andb_true_iff in Hb. destruct (good_honest _ He (proj1 Hb)) as (_ & _ & Hbl).
        rewrite app_nth2 by lia. rewrite Hbl, Nat.sub_diag. reflexivity.
    + apply Nat.eqb_neq in Hjl. unfold weight. apply fsum_ext. intros e He. apply filter_In in He. destruct He as [He Hb]. apply andb_true_iff in Hb.
      destruct (good_honest _ He (proj1 Hb)) as (_ & _ & Hbl). apply app_nth1. lia.
  - intros e He. apply filter_In in He. destruct He as [He Ho]. destruct (good_honest _ He Ho) as (Hh & Hal & Hbl). rewrite <- Hbl.
    rewrite (honest_comp E Hok _ _ _ _ Hh p j Hne) by lia. unfold point_value. destruct (is_prefix p (e_alpha e)); [reflexivity|]. apply nth_repeat.
Qed.

(** *** verification strings *)
Lemma strings_equal level paths : (forall p, In p paths -> length p = level) -> level < bits ->
  strings_of E true len level paths (held0 L) = strings_of E false len level paths (held1 L).
Proof.
  intros Hp Hl. unfold strings_of, held0, held1.
  rewrite !filter_flags, !map_map. cbn [snd]. apply map_ext_in. intros e He. apply filter_In in He. destruct He as [He Ho].
  destruct (good_honest _ He Ho) as (Hh & Hal & Hbl). rewrite <- Hbl. apply (honest_strings E Hok _ _ _ _ Hh); [exact Hp|lia].
Qed.
Lemma finals_equal paths : (forall p, In p paths -> p <> [] /\ length p <= bits) ->
  map (fun hr => proofs_xor E len paths (key_of (snd hr))) (filter (fun hr => fst hr) (held0 L)) =
  map (fun hr => proofs_xor E len paths (key_of (snd hr))) (filter (fun hr => fst hr) (held1 L)).
Proof.
  intros Hp. unfold held0, held1.
  rewrite !filter_flags, !map_map. cbn [snd]. apply map_ext_in. intros e He. apply filter_In in He. destruct He as [He Ho].
  destruct (good_honest _ He Ho) as (Hh & Hal & Hbl). rewrite <- Hbl. apply (honest_proofs_xor E Hok _ _ _ _ Hh). rewrite Hal. exact Hp.
Qed.
Lemma strings_nonempty first level paths (g : entry -> report_share) : existsb e_ok L = true -> strings_of E first len level paths (map (fun e => (e_ok e, g e)) L) <> [].
Proof.
  intros Hx H. apply existsb_exists in Hx. destruct Hx as (e & He & Ho). unfold strings_of in H. apply map_eq_nil in H.
  assert (Hin : In (e_ok e, g e) (filter (fun hr => fst hr) (map (fun e => (e_ok e, g e)) L))) by (apply filter_In; split; [apply in_map_iff; eauto|exact Ho]).
  rewrite H in Hin. destruct Hin.
Qed.
End Run.

Lemma merkle_up_some E : forall fuel l, l <> [] -> length l <= S fuel -> exists r, merkle_up fuel E l = Some r.
Proof.
  assert (Hlev : forall n l, length l <= n -> length (merkle_level E l) <= (length l + 1) / 2 /\ (l <> [] -> merkle_level E l <> [])).
  { induction n as [|n IH]; intros [|a [|b l]] Hl; cbn [merkle_level length] in *; try lia; (split; [|try discriminate; auto]); try (cbn; lia).
    destruct (IH l ltac:(lia)) as [H _]. replace (S (S (length l)) + 1) with (length l + 1 + 1 * 2) by lia. rewrite Nat.div_add by lia. lia. }
  induction fuel as [|f IH]; intros [|a [|b l]] Hne Hl; cbn [merkle_up]; try contradiction; try (eexists; reflexivity); [cbn in Hl; lia|].
  destruct (Hlev _ (a :: b :: l) (le_n _)) as [H1 H2]. apply IH; [apply H2; discriminate|].
  cbn [length] in *. replace (S (S (length l)) + 1) with (length l + 1 + 1 * 2) in H1 by lia. rewrite Nat.div_add in H1 by lia.
  pose proof (Nat.div_le_upper_bound (length l + 1) 2 (length l + 1)). lia.
Qed.
Lemma merkle_root_some E l : l <> [] -> exists r, merkle_root E l = Some r.
Proof. intros H. apply merkle_up_some; [exact H|lia]. Qed.

Lemma select_filter {A} (f : A -> bool) (l : list A) : select (map f l) l = filter f l.
Proof. induction l as [|x l IH]; [reflexivity|]. cbn [map select filter]. rewrite IH. reflexivity. Qed.
Lemma combine_maps {A B C} (f : A -> B) (g : A -> C) l : combine (map f l) (map g l) = map (fun a => (f a, g a)) l.
Proof. induction l as [|x l IH]; [reflexivity|]. cbn. rewrite IH. reflexivity. Qed.
Lemma supporters_le L p : length (supporters L p) <= length L.
Proof. unfold supporters. induction L as [|e l IH]; [cbn; lia|]. cbn [filter]. destruct (_ && _); cbn [length]; lia. Qed.

Section Levels.
Variable E : env.
Hypothesis Hok : env_ok E.
Variables (len bits : nat) (L : list entry).
Hypothesis Hgood : Forall (good_entry E len bits) L.
Hypothesis Hn : (Z.of_nat (length L) < 2 ^ 64)%Z.

Definition side (first : bool) (reps : list (bool * report_share)) (paths : list (list bool)) (s : server) : Prop :=
  s_poison s = false /\ (c_sid (s_coll s) =? 0)%Z = first /\ c_len (s_coll s) = len /\ c_depth (s_coll s) = Some bits /\
  c_reports (s_coll s) = reps /\ fronts E len reps paths (c_frontier (s_coll s)).
Definition pair_inv paths s0 s1 : Prop := side true (held0 L) paths s0 /\ side false (held1 L) paths s1.

Lemma count_range p : (0 <= count L p < 2 ^ 64)%Z.
Proof. unfold count. pose proof (supporters_le L p). lia. Qed.
Lemma fval_count p : fval (of_Z (count L p)) = count L p.
Proof. rewrite fval_of_Z. apply Z.mod_small. pose proof (count_range p). split; [lia|]. apply Z.lt_trans with (2 ^ 64)%Z; [lia|reflexivity]. Qed.

Lemma keep_heavy thr paths : (forall p, In p paths -> p <> [] /\ length p <= bits) ->
  keep_values len thr (map tn_value (map (mknode E len (held0 L)) paths)) (map tn_value (map (mknode E len (held1 L)) paths)) = Ret (map (heavy thr L) paths).
Proof.
  intros Hp. rewrite keep_values_total.
  - rewrite !map_map, combine_maps, map_map. f_equal. apply map_ext_in. intros p Hin. cbn [fst snd mknode tn_value]. destruct (Hp _ Hin) as [Hne Hl].
    pose proof (val_sum E Hok len bits L Hgood p len Hne Hl (le_n _)) as Hv. unfold val0, val1 in Hv. rewrite Hv, Nat.eqb_refl, fval_count.
    unfold heavy. f_equal. apply Z.mod_small. apply count_range.
  - apply Forall_forall. intros v Hv. rewrite map_map in Hv. apply in_map_iff in Hv. destruct Hv as (p & <- & _). cbn. rewrite sum_honest_length. lia.
  - apply Forall_forall. intros v Hv. rewrite map_map in Hv. apply in_map_iff in Hv. destruct Hv as (p & <- & _). cbn. rewrite sum_honest_length. lia.
Qed.

Lemma side_ready first reps paths level s : side first reps paths s -> paths <> [] -> (forall p, In p paths -> length p = level) ->
  (forall p, length p <= bits -> defined_at E len reps p) -> level <= bits -> ready E (s_coll s) paths level.
Proof.
  intros (_ & _ & Hl & _ & Hr & Hf) Hne Hp Hd Hlv. unfold ready. rewrite Hl, Hr. split; [exact Hf|]. split; [exact Hne|]. split; [exact Hp|].
  intros p Hin. apply Hd. rewrite (Hp _ Hin). exact Hlv.
Qed.
Lemma side_crawlable reps paths level : (forall p, In p paths -> length p = level) -> (forall p, length p <= bits -> defined_at E len reps p) -> level < bits ->
  crawlable E len reps paths.
Proof. intros Hp Hd Hl p Hin. split; apply Hd; rewrite app_length, (Hp _ Hin); cbn; lia. Qed.

Definition crawled_server (s : server) paths : server := set_coll s (crawled E (s_coll s) paths).
Lemma side_crawled first reps paths s : side first reps paths s -> side first reps (children paths) (crawled_server s paths) /\
  c_frontier (s_coll (crawled_server s paths)) = map (mknode E len reps) (children paths).
Proof.
  intros (H1 & H2 & H3 & H4 & H5 & H6). unfold side, crawled_server, crawled. cbn. rewrite H3, H5. split; [|reflexivity].
  repeat (split; [assumption||reflexivity|]). apply fronts_mknode.
Qed.

Lemma handle_crawl first reps paths level s root split : side first reps paths s -> paths <> [] -> (forall p, In p paths -> length p = level) ->
  (forall p, length p <= bits -> defined_at E len reps p) -> level < bits ->
  merkle_part E (strings_of E first len level paths reps) split [] false = Ret root ->
  handle E s (QTreeCrawl split [] false) = (crawled_server s paths, Ret (ACrawl (map tn_value (map (mknode E len reps) (children paths))) (fst root) (snd root))).
Proof.
  intros Hs Hne Hp Hd Hl Hm. pose proof Hs as (H1 & H2 & H3 & H4 & H5 & H6). apply handle_ret. split; [reflexivity|]. split; [exact H1|].
  exists (crawled E (s_coll s) paths). split; [|reflexivity]. cbn [body].
  rewrite (tree_crawl_ret E (s_coll s) paths level bits split false).
  - rewrite H2, H3, H5, Hm. destruct root as [r i]. reflexivity.
  - eapply side_ready; try eassumption. lia.
  - rewrite H3, H5. eapply side_crawlable; eassumption.
  - exact H4.
  - exact Hl.
Qed.

Lemma handle_prune first reps paths s (f : list bool -> bool) : side first reps paths s -> c_frontier (s_coll s) = map (mknode E len reps) paths ->
  exists t, handle E s (QTreePrune (map f paths)) = (t, Ret ADone) /\ side first reps (filter f paths) t /\
  c_frontier (s_coll t) = map (mknode E len reps) (filter f paths) /\ c_final (s_coll t) = c_final (s_coll s).
Proof.
  intros (H1 & H2 & H3 & H4 & H5 & H6) Hfr. eexists. split.
  - apply handle_ret. split; [reflexivity|]. split; [exact H1|]. eexists. split; [|reflexivity]. cbn [body]. rewrite tree_prune_spec.
    rewrite Hfr, !map_length, Nat.eqb_refl. reflexivity.
  - assert (Hs : select (map f paths) (map (mknode E len reps) paths) = map (mknode E len reps) (filter f paths)) by (rewrite <- select_filter, select_map; reflexivity).
    unfold side. cbn. rewrite Hs. split; [|split; reflexivity]. repeat (split; [assumption|]). apply fronts_mknode.
Qed.

Lemma level_step fuel cfg n paths level s0 s1 : pair_inv paths s0 s1 -> paths <> [] -> (forall p, In p paths -> length p = level) -> level < bits ->
  existsb e_ok L = true -> 1 <= fuel -> cfg_hist cfg = len ->
  exists t0 t1, run_level fuel E cfg s0 s1 n = Ret (t0, t1) /\ pair_inv (filter (heavy (threshold cfg) L) (children paths)) t0 t1.
Proof.
  intros [H0 H1] Hne Hp Hl Hex Hfuel Hcfg. destruct fuel as [|fuel]; [lia|].
  assert (Hd0 : forall p, length p <= bits -> defined_at E len (held0 L) p) by (intros p Hpl; apply (good_defined E Hok len bits L Hgood p Hpl)).
  assert (Hd1 : forall p, length p <= bits -> defined_at E len (held1 L) p) by (intros p Hpl; apply (good_defined E Hok len bits L Hgood p Hpl)).
  pose proof (strings_equal E Hok len bits L Hgood level paths Hp Hl) as Hstr.
  pose proof (strings_nonempty E len L true level paths e_r0 Hex) as Hsne. fold (held0 L) in Hsne.
  assert (Hm : exists root, merkle_part E (strings_of E true len level paths (held0 L)) 1 [] false = Ret ([root], [0])).
  { rewrite merkle_one by exact Hsne. set (hs := strings_of E true len level paths (held0 L)) in *.
    destruct (merkle_root_some E (firstn (2 ^ clog2f E (length hs)) hs)) as [root Hr].
    - pose proof (pow2_ge1 (clog2f E (length hs))). destruct (2 ^ clog2f E (length hs)); [lia|]. destruct hs; [contradiction|discriminate].
    - rewrite Hr. cbn [unwrap bind]. eauto. }
  destruct Hm as [root Hm0]. pose proof Hm0 as Hm1. rewrite Hstr in Hm1.
  pose proof (handle_crawl true (held0 L) paths level s0 _ 1 H0 Hne Hp Hd0 Hl Hm0) as HC0.
  pose proof (handle_crawl false (held1 L) paths level s1 _ 1 H1 Hne Hp Hd1 Hl Hm1) as HC1.
  cbn [fst snd] in HC0, HC1.
  destruct (side_crawled _ _ _ _ H0) as [HS0 HF0]. destruct (side_crawled _ _ _ _ H1) as [HS1 HF1].
  destruct (handle_prune _ _ _ _ (heavy (threshold cfg) L) HS0 HF0) as (t0 & HP0 & HT0 & _ & _).
  destruct (handle_prune _ _ _ _ (heavy (threshold cfg) L) HS1 HF1) as (t1 & HP1 & HT1 & _ & _).
  exists t0, t1. split; [|split; assumption].
  unfold run_level. cbn [level_loop]. unfold ask_servers at 1. cbn [fst snd].
  rewrite (proj2 (call2_ret _ _ _ _ _ _ _ _ _) (conj HC0 HC1)). cbn [bind].
  rewrite (proj2 (assert_true _)) by (rewrite !map_length; apply Nat.eqb_refl). cbn [bind]. rewrite Hcfg, keep_heavy.
  2:{ intros q Hq. apply children_in in Hq. destruct Hq as (p & d & Hin & ->). split; [destruct p; discriminate|]. rewrite app_length, (Hp _ Hin). cbn. lia. }
  cbn [bind length Nat.eqb mismatches seq foldM index nth_error]. rewrite bytes_eqb_refl. cbn [bind fst snd].
  apply call2_done_ret. eauto.
Qed.
End Levels.
