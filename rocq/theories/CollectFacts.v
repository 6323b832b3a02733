(** Proofs about Collect.v: pruning, FLP results, thresholds, final values, sums, re-crawling. *)
From Verif Require Import Base BaseFacts Field Util UtilFacts Env Prg Vidpf VidpfFacts Merkle Collect SpecCollect SpecServer.

Lemma mapMi_nth {A B} (f : nat -> A -> outcome B) l i r : mapMi f i l = Ret r ->
  length r = length l /\ forall j a b, nth_error l j = Some a -> nth_error r j = Some b -> f (i + j) a = Ret b.
Proof.
  intros H. apply mapMi_inv in H. destruct H as [Hl H]. split; [exact Hl|]. intros j a b Ha Hb.
  destruct (H _ _ Ha) as (b' & Hb' & Hf). congruence.
Qed.

(** *** C16 *)
Lemma select_app {A} k1 : forall k2 (l1 l2 : list A), length k1 = length l1 -> select (k1 ++ k2) (l1 ++ l2) = select k1 l1 ++ select k2 l2.
Proof.
  induction k1 as [|b k1 IH]; intros k2 [|a l1] l2 H; cbn in *; try discriminate; [reflexivity|].
  rewrite IH by lia. destruct b; reflexivity.
Qed.
Lemma firstn_S_snoc {A} (l : list A) n a : nth_error l n = Some a -> firstn (S n) l = firstn n l ++ [a].
Proof. apply firstn_S_nth. Qed.

Lemma prune_loop_spec {A} alive n : forall (l : list A), n <= length alive -> n <= length l ->
  prune_loop alive n l = Ret (select (firstn n alive) (firstn n l) ++ skipn n l).
Proof.
  induction n as [|i IH]; intros l Ha Hl; cbn [prune_loop].
  - destruct alive, l; reflexivity.
  - destruct (nth_error alive i) as [a|] eqn:Hai; [|apply nth_error_None in Hai; lia].
    destruct (nth_error l i) as [x|] eqn:Hli; [|apply nth_error_None in Hli; lia].
    rewrite (index_some _ _ _ Hai). cbn [bind].
    rewrite (firstn_S_snoc _ _ _ Hai), (firstn_S_snoc _ _ _ Hli), select_app by (rewrite !firstn_length; lia).
    destruct a; cbn [select].
    + rewrite IH by lia. rewrite (nth_skipn_cons _ _ _ Hli), <- app_assoc. reflexivity.
    + rewrite (proj2 (Nat.ltb_lt _ _)) by lia.
      assert (Hlen : length (vec_remove i l) = length l - 1) by (unfold vec_remove; rewrite app_length, firstn_length, skipn_length; lia).
      rewrite IH by lia. rewrite app_nil_r. unfold vec_remove. f_equal. f_equal.
      * f_equal. rewrite firstn_app, firstn_firstn, firstn_length, !Nat.min_l by lia. rewrite Nat.sub_diag. cbn [firstn]. apply app_nil_r.
      * rewrite skipn_app, firstn_length, !Nat.min_l by lia. rewrite Nat.sub_diag. cbn [skipn].
        rewrite skipn_firstn_comm, Nat.sub_diag. reflexivity.
Qed.
Lemma tree_prune_spec c alive :
  tree_prune c alive = if length alive =? length (c_frontier c)
                       then Ret (set_frontier c (select alive (c_frontier c))) else Panic PAssert.
Proof.
  unfold tree_prune, assert_. destruct (length alive =? length (c_frontier c)) eqn:H; [|reflexivity].
  apply Nat.eqb_eq in H. cbn [bind]. rewrite prune_loop_spec by lia. cbn [bind].
  rewrite !firstn_all, H, firstn_all, skipn_all, app_nil_r. reflexivity.
Qed.

(** *** C41 *)
Lemma apply_keep_spec keep : forall pre reps, length keep = length reps ->
  apply_keep keep (length pre) (pre ++ reps) = Ret (pre ++ mark keep reps).
Proof.
  induction keep as [|a keep IH]; intros pre [|[h r] reps] H; cbn in H; try discriminate; [reflexivity|].
  cbn [apply_keep].
  assert (Hn : nth_error (pre ++ (h, r) :: reps) (length pre) = Some (h, r)) by (rewrite nth_error_app2, Nat.sub_diag by lia; reflexivity).
  assert (Hu : forall v, update (length pre) v (pre ++ (h, r) :: reps) = pre ++ v :: reps).
  { intros v. clear. induction pre as [|y pre IH]; cbn; [reflexivity|]. f_equal. exact IH. }
  assert (Hstep : (let! reps0 := (if negb a then let! hr := index (pre ++ (h, r) :: reps) (length pre) in
      Ret (update (length pre) (false, snd hr) (pre ++ (h, r) :: reps)) else Ret (pre ++ (h, r) :: reps)) in
      apply_keep keep (S (length pre)) reps0) = apply_keep keep (length (pre ++ [(h && a, r)])) ((pre ++ [(h && a, r)]) ++ reps)).
  { rewrite app_length, <- app_assoc. cbn [length app]. rewrite Nat.add_1_r.
    destruct a; cbn [negb bind]; [rewrite andb_true_r; reflexivity|].
    rewrite (index_some _ _ _ Hn). cbn [bind snd]. rewrite Hu, andb_false_r. reflexivity. }
  rewrite Hstep, IH by lia. unfold mark. cbn [combine map fst snd]. rewrite <- app_assoc. reflexivity.
Qed.
Lemma apply_flp_results_spec c keep :
  apply_flp_results c keep = if length keep =? length (c_reports c) then Ret (set_reports c (mark keep (c_reports c))) else Panic PAssert.
Proof.
  unfold apply_flp_results, assert_. destruct (length keep =? length (c_reports c)) eqn:H; [|reflexivity].
  apply Nat.eqb_eq in H. cbn [bind].
  pose proof (apply_keep_spec keep [] (c_reports c) H) as Hk. cbn [length app] in Hk. rewrite Hk. reflexivity.
Qed.
Lemma mark_nth keep reps i : length keep = length reps ->
  nth_error (mark keep reps) i =
  match nth_error keep i, nth_error reps i with Some k, Some (h, r) => Some (h && k, r) | _, _ => None end.
Proof.
  intros H. unfold mark. rewrite nth_error_map', nth_error_combine.
  destruct (nth_error keep i), (nth_error reps i) as [[h r]|]; reflexivity.
Qed.

(** *** C20 *)
Lemma keep_values_total len thr c0 c1 :
  Forall (fun v => len < length v) c0 -> Forall (fun v => len < length v) c1 ->
  keep_values len thr c0 c1 = Ret (map (fun vv => (thr <=? fval (fadd (nth len (fst vv) (of_Z 0)) (nth len (snd vv) (of_Z 0))) mod 2 ^ 64)%Z) (combine c0 c1)).
Proof.
  intros H0. revert c1. unfold keep_values. induction H0 as [|v c0 Hv H0 IH]; intros [|w c1] H1; cbn [combine mapM map]; try reflexivity.
  inversion H1 as [|? ? Hw H1' ]; subst. cbn [fst snd].
  rewrite (index_some _ _ (nth len v (of_Z 0))) by (apply nth_error_nth'; exact Hv).
  rewrite (index_some _ _ (nth len w (of_Z 0))) by (apply nth_error_nth'; exact Hw).
  cbn [bind]. rewrite IH by exact H1'. reflexivity.
Qed.
Lemma keep_values_inv len thr c0 c1 keep : keep_values len thr c0 c1 = Ret keep ->
  length keep = Nat.min (length c0) (length c1) /\
  forall i k, nth_error keep i = Some k -> exists v w a b,
    nth_error c0 i = Some v /\ nth_error c1 i = Some w /\ nth_error v len = Some a /\ nth_error w len = Some b /\
    k = (thr <=? fval (fadd a b) mod 2 ^ 64)%Z.
Proof.
  unfold keep_values. intros H. apply mapM_inv in H.
  pose proof (Forall2_len _ _ _ H) as Hl. rewrite combine_length in Hl. split; [lia|].
  intros i k Hk. apply Forall2_nth in H. destruct H as [_ H].
  destruct (nth_error (combine c0 c1) i) as [[v w]|] eqn:Hc.
  2:{ apply nth_error_None in Hc. assert (i < length keep) by (apply nth_error_Some; congruence). rewrite combine_length in Hc. lia. }
  specialize (H _ _ _ Hc Hk). cbn [fst snd] in H. rewrite nth_error_combine in Hc.
  destruct (nth_error c0 i), (nth_error c1 i); try discriminate. injection Hc as -> ->.
  bret H as a Ha. bret H as b Hb. apply index_ret in Ha, Hb. injection H as <-. exists v, w, a, b. auto.
Qed.

(** *** C21 *)
Lemma zero_padded n v0 v1 : vec_add (vec_add (zeros n) v0) v1 = sum_vec n v0 v1.
Proof.
  unfold sum_vec. apply nth_error_ext. intros i. rewrite !vec_add_nth. unfold zeros. change (of_N 0) with fzero.
  rewrite nth_error_map'. destruct (i <? n) eqn:Hi.
  - apply Nat.ltb_lt in Hi. rewrite nth_error_seq by exact Hi. rewrite (nth_error_nth' _ fzero) by (rewrite repeat_length; exact Hi). rewrite nth_repeat.
    cbn [option_map Nat.add]. change (of_Z 0) with fzero.
    destruct (nth_error v0 i) as [a|] eqn:Ha.
    + rewrite (nth_error_nth _ _ fzero Ha). destruct (nth_error v1 i) as [b|] eqn:Hb.
      * rewrite (nth_error_nth _ _ fzero Hb). f_equal; ring.
      * rewrite (nth_overflow v1) by (apply nth_error_None; exact Hb). f_equal; ring.
    + rewrite (nth_overflow v0) by (apply nth_error_None; exact Ha). destruct (nth_error v1 i) as [b|] eqn:Hb.
      * rewrite (nth_error_nth _ _ fzero Hb). reflexivity.
      * rewrite (nth_overflow v1) by (apply nth_error_None; exact Hb). f_equal; ring.
  - apply Nat.ltb_ge in Hi. rewrite !(proj2 (nth_error_None _ _)) by (rewrite ?repeat_length, ?seq_length; exact Hi). reflexivity.
Qed.

Lemma fpos_nonzero x : fpos x = negb (fval x =? 0)%Z.
Proof.
  unfold fpos. pose proof (fval_range x) as H. destruct (0 <? fval x)%Z eqn:H1.
  - apply Z.ltb_lt in H1. symmetry. apply negb_true_iff, Z.eqb_neq. lia.
  - apply Z.ltb_ge in H1. symmetry. apply negb_false_iff, Z.eqb_eq. lia.
Qed.
Lemma final_values_spec len r0 r1 :
  final_values len r0 r1 =
  if (length r0 =? length r1) && forallb (fun rr => path_eqb (res_path (fst rr)) (res_path (snd rr))) (combine r0 r1)
  then Ret (filter (counter_nonzero len) (reconstruct len r0 r1)) else Panic PAssert.
Proof.
  unfold final_values, assert_. destruct (length r0 =? length r1) eqn:Hl; [|reflexivity]. cbn [bind andb].
  apply Nat.eqb_eq in Hl.
  assert (Hm : mapM (fun rr : result * result =>
      do! assert_ (path_eqb (res_path (fst rr)) (res_path (snd rr)));
      Ret {| res_path := res_path (fst rr);
             res_value := vec_add (vec_add (zeros (len + 1)) (res_value (fst rr))) (res_value (snd rr)) |}) (combine r0 r1) =
     if forallb (fun rr => path_eqb (res_path (fst rr)) (res_path (snd rr))) (combine r0 r1) then Ret (reconstruct len r0 r1) else Panic PAssert).
  { revert r1 Hl. induction r0 as [|a r0 IH]; intros [|b r1] Hl; try reflexivity; try discriminate.
    cbn [combine mapM forallb fst snd reconstruct]. unfold assert_ in *.
    destruct (path_eqb (res_path a) (res_path b)); cbn [bind andb]; [|reflexivity].
    injection Hl as Hl. rewrite (IH _ Hl). destruct (forallb _ (combine r0 r1)); cbn [bind]; [|reflexivity].
    rewrite zero_padded. reflexivity. }
  unfold assert_ in Hm. rewrite Hm. destruct (forallb _ _); cbn [bind]; [|reflexivity]. f_equal.
  apply filter_ext. intros r. unfold counter_nonzero. apply fpos_nonzero.
Qed.

(** *** C19 *)
Lemma tree_crawl_again E c s1 m1 l1 c1 v1 r1 i1 :
  tree_crawl E c s1 m1 l1 = Ret (c1, (v1, r1, i1)) -> exists hashes,
  merkle_part E hashes s1 m1 l1 = Ret (r1, i1) /\
  forall s2 m2, m2 <> [] ->
  tree_crawl E c1 s2 m2 false = let! '(r2, i2) := merkle_part E hashes s2 m2 false in Ret (c1, (v1, r2, i2)).
Proof.
  intros H. unfold tree_crawl in H.
  bret H as c0 Hprep. bret H as n0 Hn0. bret H as u1 Hd. bret H as next Hnext. bret H as checks Hchecks.
  bret H as hashes Hh. bret H as u2 Hda. bret H as [roots indices] Hmp. injection H as <- <- <- <-.
  exists hashes. split; [exact Hmp|]. intros s2 m2 Hm.
  unfold tree_crawl, crawl_prepare. destruct m2 as [|x m2]; [contradiction|]. cbn [bind].
  assert (Hback : set_frontier (set_frontier (set_prev c0 (c_frontier c0)) next) (c_prev (set_frontier (set_prev c0 (c_frontier c0)) next))
                  = set_prev c0 (c_frontier c0)) by (destruct c0; reflexivity).
  rewrite Hback. set (cb := set_prev c0 (c_frontier c0)).
  assert (Hf : c_frontier cb = c_frontier c0) by reflexivity. rewrite Hf, Hn0. cbn [bind].
  assert (Hdep : c_depth cb = c_depth c0) by reflexivity. rewrite Hdep, Hd. cbn [bind].
  assert (Hmk : forall p d, make_tree_node E cb p d = make_tree_node E c0 p d) by reflexivity.
  assert (Hcc : crawl_children E cb true = crawl_children E c0 true) by reflexivity.
  rewrite Hcc, Hnext. cbn [bind].
  assert (Hyc : forall l n, y_checks E cb l n = y_checks E c0 l n) by reflexivity.
  rewrite Hyc, Hchecks. cbn [bind].
  assert (Hch : mapM (client_hash E cb (length (tn_path n0)) next checks) (honest_indices (c_reports cb)) = Ret hashes) by exact Hh.
  rewrite Hch. cbn [bind]. change (c_reports cb) with (c_reports c0). rewrite Hda. cbn [bind].
  destruct (merkle_part E hashes s2 (x :: m2) false) as [[r2 i2]|p] eqn:Hm2; cbn [bind]; [|reflexivity].
  unfold cb. destruct c0; reflexivity.
Qed.

(** *** sums over the accepted reports *)
Lemma vec_add_fold_length l : forall acc,
  length (fold_left (fun acc (vr : list fld * (bool * report_share)) => if fst (snd vr) then vec_add acc (fst vr) else acc) l acc) = length acc.
Proof. induction l as [|[v [h r]] l IH]; intros acc; cbn [fold_left fst snd]; [reflexivity|]. rewrite IH. destruct h; [apply vec_add_length|reflexivity]. Qed.
Lemma sum_honest_length n vals reports : length (sum_honest n vals reports) = n.
Proof. unfold sum_honest. rewrite vec_add_fold_length. apply repeat_length. Qed.
Lemma fold_sum_nth l : forall acc j, j < length acc ->
  nth j (fold_left (fun acc (vr : list fld * (bool * report_share)) => if fst (snd vr) then vec_add acc (fst vr) else acc) l acc) (of_Z 0) =
  fadd (nth j acc (of_Z 0)) (masked_sum j (map (fun vr => fst (snd vr)) l) (map fst l)).
Proof.
  induction l as [|[v [h r]] l IH]; intros acc j Hj; cbn [fold_left fst snd map].
  - unfold masked_sum. cbn. change (of_Z 0) with fzero. ring.
  - rewrite IH by (destruct h; rewrite ?vec_add_length; exact Hj).
    unfold masked_sum. cbn [select]. destruct h; [|reflexivity].
    cbn [map fsum].
    assert (Hn : nth j (vec_add acc v) (of_Z 0) = fadd (nth j acc (of_Z 0)) (nth j v (of_Z 0))).
    { pose proof (vec_add_nth acc v j) as Hv.
      rewrite (nth_error_nth' acc (of_Z 0) Hj) in Hv.
      destruct (nth_error v j) as [b|] eqn:Hb.
      - rewrite (nth_error_nth _ _ (of_Z 0) Hb). apply nth_error_nth. exact Hv.
      - rewrite (nth_overflow v) by (apply nth_error_None; exact Hb). rewrite (nth_error_nth _ _ (of_Z 0) Hv).
        change (of_Z 0) with fzero. ring. }
    rewrite Hn. ring.
Qed.
Lemma select_length_min {A} k : forall l : list A, length k = length l -> select k l = map snd (filter fst (combine k l)).
Proof. induction k as [|b k IH]; intros [|a l] H; cbn in *; try discriminate; [reflexivity|]. rewrite IH by lia. destruct b; reflexivity. Qed.
Lemma sum_honest_nth n vals reports j : length vals = length reports -> j < n ->
  nth j (sum_honest n vals reports) (of_Z 0) = masked_sum j (map fst reports) vals.
Proof.
  intros Hl Hj. unfold sum_honest. rewrite fold_sum_nth by (unfold zeros; rewrite repeat_length; exact Hj).
  assert (H1 : map (fun vr => fst (snd vr)) (combine vals reports) = map fst reports).
  { revert reports Hl. induction vals as [|v vals IH]; intros [|r reports] Hl; cbn in *; try discriminate; [reflexivity|]. f_equal. apply IH. lia. }
  assert (H2 : map fst (combine vals reports) = vals).
  { revert reports Hl H1. clear. induction vals as [|v vals IH]; intros [|r reports] Hl H1; cbn in *; try discriminate; [reflexivity|]. f_equal. apply (IH reports); [lia|]. injection H1 as H1. exact H1. }
  rewrite H1, H2. unfold zeros. rewrite nth_repeat. change (of_N 0) with fzero. change (of_Z 0) with fzero. ring.
Qed.
