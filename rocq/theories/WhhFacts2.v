(** Complete runs of weighted heavy hitters, continued: all levels, the last level, the FLP check. *)
From Verif Require Import Base BaseFacts Field Util UtilFacts Env Prg PrgFacts PrgSpecFacts2 Vidpf SpecVidpf SpecTree VidpfFacts VidpfEvalFacts VidpfTreeFacts VidpfTreeFacts3 VidpfTreeFacts4
  Merkle Collect Server Driver SpecCollect SpecServer SpecDriver SpecCheck SpecLevel SpecWhh CollectFacts CollectInv ServerFacts DriverFacts DriverPropFacts RefuteFacts MerkleFacts LevelFacts PairFacts WhhFacts.

Lemma supporters_snoc L p d e : In e (supporters L (p ++ [d])) -> In e (supporters L p).
Proof.
  unfold supporters. rewrite !filter_In. intros [Hin H]. split; [exact Hin|]. apply andb_true_iff in H. destruct H as [-> H].
  rewrite is_prefix_snoc in H. apply andb_true_iff in H. rewrite (proj1 H). reflexivity.
Qed.
Lemma filter_le {A} (f g : A -> bool) l : (forall a, In a l -> f a = true -> g a = true) -> length (filter f l) <= length (filter g l).
Proof.
  intros H. induction l as [|x l IH]; [cbn; lia|]. specialize (IH (fun a Ha => H a (or_intror Ha))). cbn [filter].
  specialize (H x (or_introl eq_refl)). destruct (f x); [rewrite (H eq_refl); cbn [length]; lia|]. destruct (g x); cbn [length]; lia.
Qed.
Lemma heavy_snoc thr L p d : heavy thr L (p ++ [d]) = true -> heavy thr L p = true.
Proof.
  unfold heavy, count. rewrite !Z.leb_le. intros H. assert (length (supporters L (p ++ [d])) <= length (supporters L p)); [|lia].
  apply filter_le. intros e Hin He. apply andb_true_iff in He. destruct He as [-> He]. rewrite is_prefix_snoc in He. apply andb_true_iff in He. rewrite (proj1 He). reflexivity.
Qed.
Lemma filter_children thr L l : filter (heavy thr L) (children (filter (heavy thr L) l)) = filter (heavy thr L) (children l).
Proof.
  induction l as [|p l IH]; [reflexivity|]. cbn [filter]. change (children (p :: l)) with ([p ++ [false]; p ++ [true]] ++ children l).
  rewrite filter_app, <- IH. destruct (heavy thr L p) eqn:Hp.
  - change (children (p :: filter (heavy thr L) l)) with ([p ++ [false]; p ++ [true]] ++ children (filter (heavy thr L) l)). apply filter_app.
  - assert (Hd : forall d, heavy thr L (p ++ [d]) = false) by (intros d; destruct (heavy thr L (p ++ [d])) eqn:He; [apply heavy_snoc in He; congruence|reflexivity]).
    cbn [filter app]. rewrite !Hd. reflexivity.
Qed.

(** the frontier before the crawl of the given level *)
Definition frontier_at thr L level : list (list bool) := match level with O => [[]] | _ => filter (heavy thr L) (all_paths level) end.
Lemma frontier_next thr L level : filter (heavy thr L) (children (frontier_at thr L level)) = frontier_at thr L (S level).
Proof. destruct level as [|l]; [reflexivity|]. unfold frontier_at. rewrite filter_children, <- all_paths_children. reflexivity. Qed.
Lemma frontier_length thr L level p : In p (frontier_at thr L level) -> length p = level.
Proof. destruct level as [|l]; [intros [<-|[]]; reflexivity|]. intros H. apply filter_In in H. apply all_paths_length. apply H. Qed.

(** *** comparing proofs *)
Lemma forallb_same l : forallb (fun hh => bytes_eqb (fst hh) (snd hh)) (combine l l) = true.
Proof. induction l as [|x l IH]; [reflexivity|]. cbn. rewrite bytes_eqb_refl. exact IH. Qed.
Lemma proofs_loop_equal E cfg s0 s1 n : 0 < cfg_query_batch cfg -> s_poison s0 = false -> s_poison s1 = false -> c_final (s_coll s0) = c_final (s_coll s1) ->
  forall fuel start, n - start <= fuel -> proofs_loop fuel E cfg s0 s1 n start = Ret (s0, s1).
Proof.
  intros Hb H0 H1 Hf. induction fuel as [|f IH]; intros start Hs; cbn [proofs_loop].
  - replace (start <? n) with false by (symmetry; apply Nat.ltb_ge; lia). reflexivity.
  - destruct (start <? n) eqn:Hlt; [|reflexivity]. apply Nat.ltb_lt in Hlt.
    assert (Hst : start < Nat.min n (start + cfg_query_batch cfg)) by lia.
    assert (Hh : forall s, s_poison s = false -> handle E s (QGetProofs start (Nat.min n (start + cfg_query_batch cfg))) = (s, Ret (AProofs (get_proofs (s_coll s) start (Nat.min n (start + cfg_query_batch cfg)))))).
    { intros s Hp. apply handle_ret. split; [reflexivity|]. split; [exact Hp|]. exists (s_coll s). split; [|symmetry; apply set_coll_id].
      cbn [body]. rewrite debug_assert_true by (apply Nat.ltb_lt; exact Hst). reflexivity. }
    rewrite (proj2 (call2_ret _ _ _ _ _ _ _ _ _) (conj (Hh _ H0) (Hh _ H1))). cbn [bind].
    assert (Hg : get_proofs (s_coll s0) start (Nat.min n (start + cfg_query_batch cfg)) = get_proofs (s_coll s1) start (Nat.min n (start + cfg_query_batch cfg))) by (unfold get_proofs; rewrite Hf; reflexivity).
    rewrite Hg. rewrite (proj2 (assert_true _)) by apply Nat.eqb_refl. cbn [bind]. rewrite (proj2 (assert_true _)) by apply forallb_same. cbn [bind]. apply IH. lia.
Qed.

Section Levels.
Variable E : env.
Hypothesis Hok : env_ok E.
Variables (len bits : nat) (L : list entry).
Hypothesis Hgood : Forall (good_entry E len bits) L.
Hypothesis Hn : (Z.of_nat (length L) < 2 ^ 64)%Z.
Variable cfg : config.
Hypothesis Hcfg : cfg_hist cfg = len.
Notation thr := (threshold cfg).

Lemma levels_run fuel n : 1 <= fuel -> existsb e_ok L = true -> forall k level s0 s1, pair_inv E len bits L (frontier_at thr L level) s0 s1 -> level + k <= bits ->
  (forall l, level <= l < level + k -> frontier_at thr L l <> []) ->
  exists t0 t1, levels_loop fuel E cfg s0 s1 n false k = Ret (t0, t1) /\ pair_inv E len bits L (frontier_at thr L (level + k)) t0 t1.
Proof.
  intros Hf Hex. induction k as [|k IH]; intros level s0 s1 Hi Hk Hne; cbn [levels_loop].
  - rewrite Nat.add_0_r. eauto.
  - cbn [bind].
    destruct (level_step E Hok len bits L Hgood Hn fuel cfg n (frontier_at thr L level) level s0 s1 Hi) as (t0 & t1 & Hr & Hi'); try assumption.
    + apply Hne. lia.
    + apply frontier_length.
    + lia.
    + rewrite Hr. cbn [bind]. rewrite frontier_next in Hi'. destruct (IH (S level) t0 t1 Hi') as (u0 & u1 & Hu & Hi2); [lia|intros l Hl; apply Hne; lia|].
      exists u0, u1. split; [exact Hu|]. replace (level + S k) with (S level + k) by lia. exact Hi2.
Qed.

Lemma handle_last first reps paths s : side E len bits first reps paths s -> (forall p, In p paths -> length p < bits) ->
  (forall p, length p <= bits -> defined_at E len reps p) ->
  exists t, handle E s QTreeCrawlLast = (t, Ret (AFields (map tn_value (map (mknode E len reps) (children paths))))) /\
    side E len bits first reps (children paths) t /\ c_frontier (s_coll t) = map (mknode E len reps) (children paths) /\
    c_final (s_coll t) = map (fun hr => proofs_xor E len (children paths) (key_of (snd hr))) (filter (fun hr => fst hr) reps).
Proof.
  intros (H1 & H2 & H3 & H4 & H5 & H6) Hp Hd. exists (set_coll s (crawled_last E (s_coll s) paths)). split.
  - apply handle_ret. split; [reflexivity|]. split; [exact H1|]. eexists. split; [|reflexivity]. cbn [body]. rewrite (tree_crawl_last_ret E (s_coll s) paths).
    + rewrite H3, H5. reflexivity.
    + rewrite H3, H5. exact H6.
    + intros p Hin. rewrite H3, H5. apply Hd. specialize (Hp _ Hin). lia.
    + rewrite H3, H5. intros p Hin. specialize (Hp _ Hin). split; apply Hd; rewrite app_length; cbn; lia.
  - unfold side, crawled_last. cbn. rewrite H3, H5. split; [|split; reflexivity]. repeat (split; [assumption||reflexivity|]). apply fronts_mknode.
Qed.

Lemma exact_value p : p <> [] -> length p <= bits ->
  sum_vec (len + 1) (val0 E len L p) (val1 E len L p) = map (weight L p) (seq 0 len) ++ [of_Z (count L p)].
Proof.
  intros Hne Hp. unfold sum_vec. rewrite seq_app, map_app. cbn [seq map Nat.add]. f_equal.
  - apply map_ext_in. intros j Hj. apply in_seq in Hj. rewrite (val_sum E Hok len bits L Hgood p j Hne Hp) by lia. rewrite (proj2 (Nat.eqb_neq _ _)) by lia. reflexivity.
  - rewrite (val_sum E Hok len bits L Hgood p len Hne Hp) by lia. rewrite Nat.eqb_refl. reflexivity.
Qed.

Lemma reconstruct_maps {A} l (f : A -> list bool) (g h : A -> list fld) :
  reconstruct len (map (fun a => {| res_path := f a; res_value := g a |}) l) (map (fun a => {| res_path := f a; res_value := h a |}) l) =
  map (fun a => {| res_path := f a; res_value := sum_vec (len + 1) (g a) (h a) |}) l.
Proof. induction l as [|x l IH]; [reflexivity|]. cbn [map reconstruct res_path res_value]. rewrite IH. reflexivity. Qed.

Lemma last_step fuel n paths s0 s1 : pair_inv E len bits L paths s0 s1 -> 0 < cfg_query_batch cfg -> n <= fuel -> (forall p, In p paths -> length p < bits) ->
  exists t0 t1, run_level_last fuel E cfg s0 s1 n = Ret (t0, t1, map (exact_result L len) (filter (heavy thr L) (children paths))).
Proof.
  intros [H0 H1] Hb Hf Hp.
  assert (Hd0 : forall p, length p <= bits -> defined_at E len (held0 L) p) by (intros p Hpl; apply (good_defined E Hok len bits L Hgood p Hpl)).
  assert (Hd1 : forall p, length p <= bits -> defined_at E len (held1 L) p) by (intros p Hpl; apply (good_defined E Hok len bits L Hgood p Hpl)).
  assert (Hch : forall q, In q (children paths) -> q <> [] /\ length q <= bits).
  { intros q Hq. apply children_in in Hq. destruct Hq as (p & d & Hin & ->). split; [destruct p; discriminate|]. specialize (Hp _ Hin). rewrite app_length. cbn. lia. }
  destruct (handle_last _ _ _ _ H0 Hp Hd0) as (a0 & HA0 & HS0 & HF0 & HL0). destruct (handle_last _ _ _ _ H1 Hp Hd1) as (a1 & HA1 & HS1 & HF1 & HL1).
  destruct (handle_prune E len bits _ _ _ _ (heavy thr L) HS0 HF0) as (t0 & HP0 & HT0 & HR0 & _).
  destruct (handle_prune E len bits _ _ _ _ (heavy thr L) HS1 HF1) as (t1 & HP1 & HT1 & HR1 & _).
  exists t0, t1. unfold run_level_last. rewrite (proj2 (call2_ret _ _ _ _ _ _ _ _ _) (conj HA0 HA1)). cbn [bind].
  rewrite (proj2 (assert_true _)) by (rewrite !map_length; apply Nat.eqb_refl). cbn [bind]. rewrite Hcfg, (keep_heavy E Hok len bits L Hgood Hn) by exact Hch. cbn [bind].
  rewrite proofs_loop_equal; [|exact Hb|apply HS0|apply HS1| |lia].
  2:{ rewrite HL0, HL1. apply (finals_equal E Hok len bits L Hgood). exact Hch. }
  cbn [bind]. rewrite (proj2 (call2_done_ret _ _ _ _ _ t0 t1)) by eauto. cbn [bind].
  assert (Hfin : forall t, s_poison t = false -> handle E t QFinalShares = (t, Ret (AFinal (final_shares (s_coll t))))).
  { intros t Ht. apply handle_ret. split; [reflexivity|]. split; [exact Ht|]. eexists. split; [reflexivity|]. symmetry. apply set_coll_id. }
  rewrite (proj2 (call2_ret _ _ _ _ _ _ _ _ _) (conj (Hfin t0 (proj1 HT0)) (Hfin t1 (proj1 HT1)))). cbn [bind].
  unfold final_shares. rewrite HR0, HR1, !map_map. cbn [mknode tn_path tn_value].
  rewrite final_values_spec, !map_length, Nat.eqb_refl. cbn [andb].
  assert (Hpe : forall l : list (list bool), forallb (fun rr : result * result => path_eqb (res_path (fst rr)) (res_path (snd rr)))
      (combine (map (fun p => {| res_path := p; res_value := sum_honest (len + 1) (words_of E len (held0 L) p) (held0 L) |}) l)
               (map (fun p => {| res_path := p; res_value := sum_honest (len + 1) (words_of E len (held1 L) p) (held1 L) |}) l)) = true).
  { induction l as [|x l IH]; [reflexivity|]. cbn [map combine forallb fst snd res_path]. rewrite (proj2 (path_eqb_eq x x)) by reflexivity. exact IH. }
  rewrite Hpe. cbn [bind]. rewrite reconstruct_maps.
  do 3 f_equal. change (fun a => {| res_path := a; res_value := sum_vec (len + 1) (sum_honest (len + 1) (words_of E len (held0 L) a) (held0 L)) (sum_honest (len + 1) (words_of E len (held1 L) a) (held1 L)) |})
    with (fun a => {| res_path := a; res_value := sum_vec (len + 1) (val0 E len L a) (val1 E len L a) |}).
  rewrite (map_ext_in _ (exact_result L len)).
  - assert (Hall : forall l, (forall x, In x l -> counter_nonzero len x = true) -> filter (counter_nonzero len) l = l).
    { induction l as [|x l IH]; intros H; [reflexivity|]. cbn [filter]. rewrite (H x (or_introl eq_refl)), IH by (intros; apply H; right; assumption). reflexivity. }
    apply Hall. intros x Hx. apply in_map_iff in Hx. destruct Hx as (p & <- & Hin). apply filter_In in Hin. destruct Hin as [_ Hh].
    unfold counter_nonzero, exact_result. cbn [res_value]. rewrite app_nth2, map_length, seq_length, Nat.sub_diag by (rewrite map_length, seq_length; lia). cbn [nth].
    rewrite (fval_count L Hn). unfold heavy in Hh. apply Z.leb_le in Hh. unfold threshold in Hh. apply negb_true_iff, Z.eqb_neq. lia.
  - intros p Hin. apply filter_In in Hin. destruct Hin as [Hin _]. destruct (Hch _ Hin) as [Hne Hl]. unfold exact_result. rewrite exact_value by assumption. reflexivity.
Qed.
End Levels.
