(** One level of the driver with inconsistent reports. *)
From Verif Require Import Base BaseFacts Field Util UtilFacts Env Prg Vidpf SpecVidpf SpecTree VidpfTreeFacts VidpfTreeFacts3 Merkle Collect Server Driver SpecCollect SpecServer SpecDriver SpecCheck SpecLevel SpecWhh SpecSearch
  CollectFacts CollectInv ServerFacts DriverFacts RefuteFacts MerkleFacts LevelFacts PairFacts WhhFacts WhhFacts2 SearchFacts.

(** *** states *)
Section States.
Variable E : env.
Lemma holds_ok len reps n node : holds_evaluations E len reps n node -> node_ok E len reps n node.
Proof.
  intros (H1 & H2 & H3). split; [exact H1|]. split; [exact H2|]. intros i st v Hst Hv.
  assert (Hi : i < n) by (rewrite <- H1; apply nth_error_Some; congruence).
  destruct (H3 i Hi) as (h & nonce & k & proof & jr & st' & out & Hr & Hst' & Hl & Hv').
  rewrite Hst in Hst'. injection Hst' as <-. rewrite Hv in Hv'. injection Hv' as ->.
  exists h, (RSMastic nonce k proof jr), k, (last (map Some out) None). split; [exact Hr|]. split; [reflexivity|].
  destruct (eval_loop_evals_init _ _ _ _ _ _ _ Hl) as [He _]. split; [exact He|].
  change (of_N 0) with (of_Z 0). destruct (last (map Some out) None) as [x|] eqn:Hx; [apply last_some; exact Hx|apply last_none in Hx; subst; reflexivity].
Qed.
Lemma node_is_holds len reps p node : node_is E len reps p node -> defined_at E len reps p -> holds_evaluations E len reps (length reps) node.
Proof.
  intros (Hp & Hs & Hv) Hd. subst p. apply node_ok_holds. split; [rewrite Hs; apply map_length|]. split; [rewrite Hv; apply map_length|].
  intros i st v H1 H2. rewrite Hs in H1. rewrite Hv in H2. unfold states_of in H1. unfold words_of in H2. rewrite nth_error_map' in H1. rewrite nth_error_map' in H2.
  destruct (nth_error reps i) as [[h r]|] eqn:Hr; [|discriminate]. cbn [option_map snd] in H1, H2. destruct (Hd h r) as (st' & w & Hk & He); [eapply nth_error_In; exact Hr|].
  destruct (evals_at E _ _ _ _ _ He) as [E1 E2]. exists h, r, (key_of r), w. split; [reflexivity|]. split; [exact Hk|].
  assert (Hst : st' = st) by congruence. rewrite Hst in He. split; [exact He|]. change (of_N 0) with (of_Z 0). congruence.
Qed.
Lemma mknode_sums len reps p : p <> [] -> defined_at E len reps p -> is_sum_of_accepted E len reps p (tn_value (mknode E len reps p)).
Proof.
  intros Hne Hd. exists (words_of E len reps p). assert (Hl : length (words_of E len reps p) = length reps) by (unfold words_of; apply map_length).
  split; [exact Hl|]. split; [|split].
  - intros i w Hw. unfold words_of in Hw. rewrite nth_error_map' in Hw. destruct (nth_error reps i) as [[h r]|] eqn:Hr; [|discriminate]. cbn [option_map snd] in Hw.
    destruct (Hd h r) as (st & w' & Hk & He); [eapply nth_error_In; exact Hr|]. destruct r as [nonce k proof jr|]; [|discriminate]. cbn [key_of] in *.
    destruct (evals_at E _ _ _ _ _ He) as [_ E2]. destruct w' as [x|].
    + exists h, nonce, k, proof, jr, (es_proof st). split; [reflexivity|]. assert (w = x) by congruence. subst. eapply evals_share_at; exact He.
    + exfalso. apply Hne. apply evals_inv in He. destruct He as [(He & _)|(? & ? & ? & ? & ? & _ & _ & _ & He)]; [exact He|discriminate].
  - cbn [mknode tn_value]. apply sum_honest_length.
  - intros j Hj. cbn [mknode tn_value]. apply sum_honest_nth; [exact Hl|lia].
Qed.

Lemma at_side first len bits paths reps s : at_frontier E first len bits paths reps s -> side E len bits first reps paths s.
Proof.
  intros (H1 & H2 & H3 & H4 & H5 & H6 & H7). unfold side. repeat (split; [assumption|]). subst paths. unfold fronts. clear -H7.
  induction (c_frontier (s_coll s)) as [|n f IH]; [constructor|]. cbn [map]. constructor; [|apply IH; intros; apply H7; right; assumption].
  apply (node_ok_is E). apply holds_ok. apply H7. left. reflexivity.
Qed.
Lemma side_at first len bits paths reps s : side E len bits first reps paths s -> (forall p, In p paths -> defined_at E len reps p) -> at_frontier E first len bits paths reps s.
Proof.
  intros (H1 & H2 & H3 & H4 & H5 & H6) Hd. unfold at_frontier. repeat (split; [assumption|]). split; [eapply fronts_paths; exact H6|]. unfold fronts in H6.
  revert Hd. induction H6 as [|p n paths f Hn Hf IH]; intros Hd node Hin; [destruct Hin|]. destruct Hin as [<-|Hin].
  - eapply node_is_holds; [exact Hn|apply Hd; left; reflexivity].
  - apply IH; [intros; apply Hd; right; assumption|exact Hin].
Qed.

(** *** crawling *)
Lemma tree_crawl_from c c' paths level d split M last : crawl_prepare c M last = Ret c' -> ready E c' paths level -> crawlable E (c_len c') (c_reports c') paths -> c_depth c' = Some d -> level < d ->
  tree_crawl E c split M last =
  let! '(r, i) := merkle_part E (strings_of E (c_sid c' =? 0)%Z (c_len c') level paths (c_reports c')) split M last in
  Ret (crawled E c' paths, (map tn_value (map (mknode E (c_len c') (c_reports c')) (children paths)), r, i)).
Proof.
  intros Hprep (Hf & Hne & Hlv & Hd) Hc Hdep Hlt. unfold tree_crawl. rewrite Hprep. cbn [bind].
  destruct paths as [|p0 ps]; [contradiction|]. destruct (c_frontier c') as [|n0 f] eqn:Hfr; [inversion Hf|].
  cbn [index nth_error bind].
  assert (Hp0 : length (tn_path n0) = level) by (assert (Hn : node_is E (c_len c') (c_reports c') p0 n0) by (inversion Hf; assumption); rewrite (proj1 Hn); apply Hlv; left; reflexivity).
  rewrite Hp0, Hdep. cbn [unwrap bind].
  assert (Hu : (if dbg E then debug_assert true (level <? d) else Ret tt) = Ret tt) by (destruct (dbg E); [apply debug_assert_true, Nat.ltb_lt; exact Hlt|reflexivity]).
  rewrite Hu. cbn [bind]. clear Hu.
  rewrite (crawl_children_ret E c' true (p0 :: ps)).
  - cbn [bind]. rewrite y_checks_ret by (rewrite Hfr; exact Hf). cbn [bind].
    rewrite (honest_indices_map _ _ (fun r => verification_string E (c_sid c' =? 0)%Z (c_len c') level (p0 :: ps) (key_of r))).
    2:{ intros i h r Hr. rewrite (client_hash_ret E _ _ _ _ _ _ Hr Hc). reflexivity. }
    cbn [bind]. rewrite debug_assert_true by (rewrite map_length; apply Nat.eqb_refl). cbn [bind].
    unfold strings_of, crawled. rewrite Hfr. reflexivity.
  - rewrite Hfr. exact Hf.
  - exact Hd.
  - exact Hc.
  - intros _. exists d. split; [exact Hdep|]. intros p Hp. rewrite (Hlv _ Hp). lia.
Qed.

Lemma handle_panic s q p : prelock E q = Ret tt -> s_poison s = false -> body E s q = Panic p -> handle E s q = (set_poison s, Panic p).
Proof. intros H1 H2 H3. unfold handle. rewrite H1, H2, H3. reflexivity. Qed.

Section Crawls.
Variables (len bits : nat) (first : bool) (reps : list (bool * report_share)) (paths : list (list bool)) (level : nat) (s : server).
Hypothesis Hs : side E len bits first reps paths s.
Hypothesis Hne : paths <> [].
Hypothesis Hp : forall p, In p paths -> length p = level.
Hypothesis Hl : level < bits.
Hypothesis Hd : forall p, length p <= bits -> defined_at E len reps p.

Definition values_of (rs : list (bool * report_share)) := map tn_value (map (mknode E len rs) (children paths)).
Definition answer (out : outcome (list bytes * list nat)) (t : server) (rs : list (bool * report_share)) (s' : server) : server * outcome response :=
  match out with Ret (r, i) => (t, Ret (ACrawl (values_of rs) r i)) | Panic p => (set_poison s', Panic p) end.

Lemma first_crawl split : handle E s (QTreeCrawl split [] false) =
  answer (merkle_part E (strings_of E first len level paths reps) split [] false) (crawled_server E s paths) reps s.
Proof.
  pose proof Hs as (H1 & H2 & H3 & H4 & H5 & H6). unfold handle. cbn [prelock]. rewrite H1. cbn [body].
  rewrite (tree_crawl_ret E (s_coll s) paths level bits split false); [|eapply side_ready; try eassumption; lia|rewrite H3, H5; apply (side_crawlable E len bits [] _ paths level Hp); assumption|exact H4|exact Hl].
  rewrite H2, H3, H5. destruct (merkle_part _ _ _ _ _) as [[r i]|p]; reflexivity.
Qed.
Lemma again_crawl split M : M <> [] -> handle E (crawled_server E s paths) (QTreeCrawl split M false) =
  answer (merkle_part E (strings_of E first len level paths reps) split M false) (crawled_server E s paths) reps (crawled_server E s paths).
Proof.
  intros HM. pose proof Hs as (H1 & H2 & H3 & H4 & H5 & H6). unfold handle. cbn [prelock crawled_server set_coll s_poison]. rewrite H1. cbn [body s_coll].
  set (c := s_coll s) in *. set (c' := set_frontier (crawled E c paths) (c_frontier c)).
  rewrite (tree_crawl_from _ c' paths level bits split M false).
  - assert (Hlen : c_len c' = len) by exact H3. assert (Hrep : c_reports c' = reps) by exact H5. assert (Hsid : (c_sid c' =? 0)%Z = first) by exact H2.
    rewrite Hlen, Hrep, Hsid. destruct (merkle_part _ _ _ _ _) as [[r i]|p]; reflexivity.
  - destruct M; [contradiction|]. reflexivity.
  - assert (Hr : ready E c paths level) by (eapply side_ready; try eassumption; lia). exact Hr.
  - assert (Hr : crawlable E (c_len c) (c_reports c) paths) by (rewrite H3, H5; apply (side_crawlable E len bits [] _ paths level Hp); assumption). exact Hr.
  - exact H4.
  - exact Hl.
Qed.

(** the last crawl of the search clears flags first *)
Lemma reject_nth M : forall rs, (forall m, In m M -> m < length rs) ->
  exists rs', foldM (fun reps m => let! hr := index reps m in Ret (update m (false, snd hr) reps)) rs M = Ret rs' /\
  forall i, nth_error rs' i = option_map (fun hr : bool * report_share => (fst hr && negb (existsb (Nat.eqb i) M), snd hr)) (nth_error rs i).
Proof.
  induction M as [|m M IH]; intros rs HM.
  - exists rs. split; [reflexivity|]. intros i. destruct (nth_error rs i) as [[h r]|]; [|reflexivity]. cbn. rewrite andb_true_r. reflexivity.
  - cbn [foldM]. assert (Hm : m < length rs) by (apply HM; left; reflexivity). destruct (nth_error rs m) as [[h r]|] eqn:Hr; [|apply nth_error_None in Hr; lia].
    rewrite (index_some _ _ _ Hr). cbn [bind snd]. destruct (IH (update m (false, r) rs)) as (rs' & Hf & Hn); [intros x Hx; rewrite update_length; apply HM; right; exact Hx|].
    exists rs'. split; [exact Hf|]. intros i. rewrite Hn. cbn [existsb]. destruct (Nat.eq_dec i m) as [->|Hi].
    + rewrite update_nth_eq by exact Hm. rewrite Hr, Nat.eqb_refl. cbn. rewrite andb_false_r. reflexivity.
    + rewrite update_nth_neq by congruence. rewrite (proj2 (Nat.eqb_neq i m)) by exact Hi. reflexivity.
Qed.
Lemma last_crawl split M rs' : M <> [] -> (forall m, In m M -> m < length reps) ->
  (forall i, nth_error rs' i = option_map (fun hr : bool * report_share => (fst hr && negb (existsb (Nat.eqb i) M), snd hr)) (nth_error reps i)) ->
  exists t, handle E (crawled_server E s paths) (QTreeCrawl split M true) =
    answer (merkle_part E (strings_of E first len level paths rs') split M true) t rs' (crawled_server E s paths) /\
  side E len bits first rs' (children paths) t /\ c_frontier (s_coll t) = map (mknode E len rs') (children paths).
Proof.
  intros HM Hb Hrs. pose proof Hs as (H1 & H2 & H3 & H4 & H5 & H6).
  destruct (reject_nth M reps Hb) as (rs2 & Hf & Hn). assert (rs2 = rs') by (apply nth_error_ext; intros i; rewrite Hn, Hrs; reflexivity). subst rs2.
  assert (Hsame : same_shares reps rs').
  { unfold same_shares. apply nth_error_ext. intros i. rewrite !nth_error_map', Hrs. destruct (nth_error reps i) as [[h r]|]; reflexivity. }
  set (c := s_coll s) in *. set (c' := set_frontier (set_reports (crawled E c paths) rs') (c_frontier c)).
  assert (Hlen : c_len c' = len) by exact H3. assert (Hrep : c_reports c' = rs') by reflexivity. assert (Hsid : (c_sid c' =? 0)%Z = first) by exact H2.
  assert (Hd' : forall p, length p <= bits -> defined_at E len rs' p) by (intros; eapply defined_same; [exact Hsame|apply Hd; assumption]).
  exists (set_coll s (crawled E c' paths)). split.
  - unfold handle. cbn [prelock crawled_server set_coll s_poison]. rewrite H1. cbn [body s_coll]. fold c.
    rewrite (tree_crawl_from _ c' paths level bits split M true).
    + rewrite Hlen, Hrep, Hsid. destruct (merkle_part _ _ _ _ _) as [[r i]|p]; reflexivity.
    + destruct M as [|m M]; [contradiction|]. assert (Hrc : reject_clients (crawled E c paths) (m :: M) = Ret (set_reports (crawled E c paths) rs')).
      { unfold reject_clients. replace (c_reports (crawled E c paths)) with reps by (symmetry; exact H5). rewrite Hf. reflexivity. }
      change (crawl_prepare (crawled E c paths) (m :: M) true = Ret c'). unfold crawl_prepare. rewrite Hrc. reflexivity.
    + unfold ready. rewrite Hlen, Hrep. split; [apply (fronts_same E len reps rs' paths (c_frontier c) Hsame H6)|]. split; [exact Hne|]. split; [exact Hp|].
      intros p Hin. apply Hd'. rewrite (Hp _ Hin). lia.
    + rewrite Hlen, Hrep. apply (side_crawlable E len bits [] _ paths level Hp); assumption.
    + exact H4.
    + exact Hl.
  - unfold side, crawled. cbn. rewrite H3. split; [|reflexivity]. repeat (split; [assumption||reflexivity|]). apply fronts_mknode.
Qed.
End Crawls.
End States.
