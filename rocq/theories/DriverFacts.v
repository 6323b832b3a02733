(** Proofs about Driver.v: uploading, FLP query batches, the number of crawls, printing, sampling. *)
From Verif Require Import Base BaseFacts Field Util UtilFacts Env Prg Vidpf VidpfFacts Merkle Collect Server Driver
  SpecCollect SpecServer CollectFacts CollectInv ServerFacts.

(** *** calls to both aggregators *)
Lemma call2_ret E s0 s1 q0 q1 s0' s1' r0 r1 : call2 E s0 s1 q0 q1 = Ret (s0', s1', (r0, r1)) <->
  handle E s0 q0 = (s0', Ret r0) /\ handle E s1 q1 = (s1', Ret r1).
Proof.
  unfold call2. destruct (handle E s0 q0) as [t0 [a0|p]], (handle E s1 q1) as [t1 [a1|p1]]; cbn [bind]; split; try discriminate;
    try (intros [? ?]; discriminate).
  - intros H. injection H as <- <- <- <-. split; reflexivity.
  - intros [H1 H2]. injection H1 as <- <-. injection H2 as <- <-. reflexivity.
Qed.
Lemma call2_done_ret E s0 s1 q0 q1 s0' s1' : call2_done E s0 s1 q0 q1 = Ret (s0', s1') <->
  exists r0 r1, handle E s0 q0 = (s0', Ret r0) /\ handle E s1 q1 = (s1', Ret r1).
Proof.
  unfold call2_done. split.
  - intros H. bret H as [[t0 t1] [r0 r1]] Hc. injection H as <- <-. apply call2_ret in Hc. eauto.
  - intros (r0 & r1 & H). apply call2_ret in H. rewrite H. reflexivity.
Qed.
Lemma handle_ret E s q s' r : handle E s q = (s', Ret r) <->
  prelock E q = Ret tt /\ s_poison s = false /\ exists c, body E s q = Ret (c, r) /\ s' = set_coll s c.
Proof.
  unfold handle. destruct (prelock E q) as [[]|p]; [|split; [discriminate|intros [? _]; discriminate]].
  destruct (s_poison s); [split; [discriminate|intros (_ & ? & _); discriminate]|].
  destruct (body E s q) as [[c a]|p]; split.
  - intros H. injection H as <- <-. eauto 6.
  - intros (_ & _ & c' & H & ->). injection H as -> ->. reflexivity.
  - discriminate.
  - intros (_ & _ & c' & H & _). discriminate.
Qed.
Lemma set_coll_id s : set_coll s (s_coll s) = s.
Proof. destruct s; reflexivity. Qed.

(** *** C37 *)
Lemma upload_inner_spec slots : forall left b, let '(left', sizes) := upload_inner slots left b in
  left' + list_sum sizes = left /\ (0 < b -> left' = left - slots * b) /\ (b = 0 -> left' = left).
Proof.
  induction slots as [|k IH]; intros left b; cbn [upload_inner]; [cbn; lia|].
  specialize (IH (left - Nat.min left b) b). destruct (upload_inner k (left - Nat.min left b) b) as [left' sizes].
  destruct IH as (IH1 & IH2 & IH3). split; [|split].
  - destruct (0 <? Nat.min left b) eqn:H; [cbn [list_sum fold_right]|apply Nat.ltb_ge in H]; cbn; fold (list_sum sizes) in *; lia.
  - intros Hb. rewrite IH2 by exact Hb. cbn [Nat.mul]. lia.
  - intros Hb. rewrite IH3 by exact Hb. lia.
Qed.
Lemma upload_sizes_spec b : 0 < b -> forall fuel left, left <= fuel -> exists sizes, upload_sizes fuel left b = Ret sizes /\ list_sum sizes = left.
Proof.
  intros Hb. induction fuel as [|f IH]; intros left Hl; cbn [upload_sizes].
  - replace left with 0 by lia. cbn. exists []. split; reflexivity.
  - destruct (0 <? left) eqn:H0; [|apply Nat.ltb_ge in H0; exists []; split; [reflexivity|cbn; lia]]. apply Nat.ltb_lt in H0.
    pose proof (upload_inner_spec 1000 left b) as Hi. destruct (upload_inner 1000 left b) as [left' sizes].
    destruct Hi as (H1 & H2 & _). specialize (H2 Hb).
    assert (Hlt : left' < left) by (assert (1 <= 1000 * b) by lia; lia).
    destruct (IH left') as (rest & Hr & Hs); [lia|]. rewrite Hr. cbn [bind]. exists (sizes ++ rest). split; [reflexivity|].
    rewrite list_sum_app. lia.
Qed.
Lemma upload_sizes_zero fuel : forall left, 0 < left -> upload_sizes fuel left 0 = Panic PFuel.
Proof.
  induction fuel as [|f IH]; intros left Hl; cbn [upload_sizes]; rewrite (proj2 (Nat.ltb_lt _ _) Hl); [reflexivity|].
  pose proof (upload_inner_spec 1000 left 0) as Hi. destruct (upload_inner 1000 left 0) as [left' sizes].
  destruct Hi as (_ & _ & H3). rewrite (H3 eq_refl), IH by exact Hl. reflexivity.
Qed.

Definition with_reports (s : server) (rs : list report_share) : server :=
  set_coll s (set_reports (s_coll s) (c_reports (s_coll s) ++ map (fun r => (true, r)) rs)).
Lemma with_reports_app s a b : with_reports (with_reports s a) b = with_reports s (a ++ b).
Proof. destruct s as [i bt c p]. destruct c. unfold with_reports, set_coll, set_reports. cbn. rewrite map_app, app_assoc. reflexivity. Qed.
Lemma with_reports_nil s : with_reports s [] = s.
Proof. destruct s as [i bt c p]. destruct c. unfold with_reports, set_coll, set_reports. cbn. rewrite app_nil_r. reflexivity. Qed.

Lemma handle_add E s rs : s_poison s = false -> handle E s (QAddReportShares rs) = (with_reports s rs, Ret ADone).
Proof. intros Hp. apply handle_ret. split; [reflexivity|]. split; [exact Hp|]. eexists. split; [reflexivity|]. cbn [body]. rewrite add_reports_spec. reflexivity. Qed.

Lemma mapM_app {A B} (f : A -> outcome B) l1 l2 : mapM f (l1 ++ l2) = let! a := mapM f l1 in let! b := mapM f l2 in Ret (a ++ b).
Proof.
  induction l1 as [|x l1 IH]; cbn [mapM app bind]; [destruct (mapM f l2); reflexivity|].
  destruct (f x); cbn [bind]; [|reflexivity]. rewrite IH. destruct (mapM f l1); cbn [bind]; [|reflexivity].
  destruct (mapM f l2); reflexivity.
Qed.

Lemma upload_batches_spec E reports sizes : forall chs ups s0 s1, list_sum sizes = length chs ->
  s_poison s0 = false -> s_poison s1 = false -> mapM (make_upload reports) chs = Ret ups ->
  upload_batches E reports sizes chs s0 s1 = Ret (with_reports s0 (map fst ups), with_reports s1 (map snd ups)).
Proof.
  induction sizes as [|n sizes IH]; intros chs ups s0 s1 Hs H0 H1 Hu; cbn [upload_batches].
  - destruct chs; [|discriminate]. injection Hu as <-. cbn [map]. rewrite !with_reports_nil. reflexivity.
  - cbn [list_sum fold_right] in Hs. fold (list_sum sizes) in Hs.
    rewrite <- (firstn_skipn n chs) in Hu. rewrite mapM_app in Hu. bret Hu as u1 Hu1. bret Hu as u2 Hu2. injection Hu as <-.
    unfold add_reports. rewrite Hu1. cbn [bind].
    rewrite (proj2 (call2_done_ret _ _ _ _ _ _ _)) by (do 2 eexists; split; apply handle_add; assumption).
    cbn [bind]. rewrite (IH _ u2); try assumption.
    + rewrite !with_reports_app, !map_app. reflexivity.
    + rewrite skipn_length. lia.
Qed.
Lemma upload_batches_panic E reports sizes : forall chs p s0 s1, list_sum sizes = length chs ->
  mapM (make_upload reports) chs = Panic p -> exists p', upload_batches E reports sizes chs s0 s1 = Panic p'.
Proof.
  induction sizes as [|n sizes IH]; intros chs p s0 s1 Hs Hu; cbn [upload_batches].
  - destruct chs; [discriminate|discriminate].
  - cbn [list_sum fold_right] in Hs. fold (list_sum sizes) in Hs.
    rewrite <- (firstn_skipn n chs) in Hu. rewrite mapM_app in Hu. unfold add_reports.
    destruct (mapM (make_upload reports) (firstn n chs)) as [u1|p1]; cbn [bind] in *; [|eauto].
    destruct (mapM (make_upload reports) (skipn n chs)) as [u2|p2] eqn:H2; cbn [bind] in *; [discriminate|].
    destruct (call2_done _ _ _ _ _) as [[t0 t1]|p3]; cbn [bind]; [|eauto].
    eapply IH; [rewrite skipn_length; lia|exact H2].
Qed.
Lemma upload_spec fuel E cfg reports chs ups s0 s1 : 0 < cfg_add_batch cfg -> length chs <= fuel ->
  s_poison s0 = false -> s_poison s1 = false -> mapM (make_upload reports) chs = Ret ups ->
  upload fuel E cfg reports chs s0 s1 = Ret (with_reports s0 (map fst ups), with_reports s1 (map snd ups)).
Proof.
  intros Hb Hf H0 H1 Hu. unfold upload. destruct (upload_sizes_spec _ Hb _ _ Hf) as (sizes & -> & Hs). cbn [bind].
  apply upload_batches_spec; assumption.
Qed.
Lemma upload_zero fuel E cfg reports chs s0 s1 : cfg_add_batch cfg = 0 -> chs <> [] -> upload fuel E cfg reports chs s0 s1 = Panic PFuel.
Proof. intros Hb Hc. unfold upload. rewrite Hb, upload_sizes_zero; [reflexivity|]. destruct chs; [contradiction|cbn; lia]. Qed.

(** *** C23 *)
Definition flp_one (E : env) (c : coll) (nl nr : tree_node) (i : nat) : outcome (list fld) :=
  let! y_p0 := index (tn_values nl) i in
  let! y_p1 := index (tn_values nr) i in
  let beta_share := zeros (c_len c) in
  let beta_share := vec_add beta_share y_p0 in
  let beta_share := vec_add beta_share y_p1 in
  let! hr := index (c_reports c) i in
  let! proof := unwrap_flp_proof_share (snd hr) in
  let! query_rand := flp_query_rand E c i in
  let! joint_rand := flp_joint_rand E c i in
  unwrap (flp_query E (c_len c) beta_share proof query_rand joint_rand 2).
Definition flp_pre (E : env) (c : coll) : outcome (nat * tree_node * tree_node) :=
  let! n0 := index (c_frontier c) 0 in
  do! assert_ (length (tn_path n0) =? 0);
  do! debug_assert (dbg E) (length (c_frontier c) =? 1);
  let! node_left := make_tree_node E c n0 false in
  let! node_right := make_tree_node E c n0 true in
  do! debug_assert (dbg E) (length (tn_values n0) =? length (tn_values node_left));
  Ret (length (tn_values n0), node_left, node_right).
Lemma bind_assoc {A B C} (m : outcome A) (f : A -> outcome B) (g : B -> outcome C) : bind (bind m f) g = bind m (fun x => bind (f x) g).
Proof. destruct m; reflexivity. Qed.
Lemma run_flp_queries_split E c a b : run_flp_queries E c a b =
  let! '(n, nl, nr) := flp_pre E c in mapM (flp_one E c nl nr) (filter (fun i => (a <=? i) && (i <? b)) (seq 0 n)).
Proof.
  unfold run_flp_queries, flp_pre. rewrite bind_assoc. destruct (index (c_frontier c) 0) as [n0|]; cbn [bind]; [|reflexivity].
  destruct (assert_ _); cbn [bind]; [|reflexivity]. destruct (debug_assert _ _); cbn [bind]; [|reflexivity].
  destruct (make_tree_node E c n0 false) as [nl|]; cbn [bind]; [|reflexivity].
  destruct (make_tree_node E c n0 true) as [nr|]; cbn [bind]; [|reflexivity].
  destruct (debug_assert _ _); cbn [bind]; reflexivity.
Qed.
Lemma filter_range a b : a <= b -> forall n s, s <= a -> filter (fun i => (a <=? i) && (i <? b)) (seq s n) = seq a (Nat.min b (s + n) - a).
Proof.
  intros Hab n. induction n as [|n IH]; intros s Hs; cbn [seq filter].
  - replace (Nat.min b (s + 0) - a) with 0 by lia. reflexivity.
  - destruct (Nat.eq_dec s a) as [->|Hne].
    + rewrite Nat.leb_refl. cbn [andb]. destruct (a <? b) eqn:Hlt.
      * apply Nat.ltb_lt in Hlt. clear IH. replace (Nat.min b (a + S n) - a) with (S (Nat.min (b - a - 1) n)) by lia. cbn [seq]. f_equal.
        assert (Hg : forall n s, a < s -> s <= b -> filter (fun i => (a <=? i) && (i <? b)) (seq s n) = seq s (Nat.min (b - s) n)).
        { clear n. induction n as [|n IH]; intros s Hs' Hb'; cbn [seq filter]; [rewrite Nat.min_0_r; reflexivity|].
          rewrite (proj2 (Nat.leb_le a s)) by lia. cbn [andb]. destruct (s <? b) eqn:Hsb.
          - apply Nat.ltb_lt in Hsb. rewrite IH by lia. replace (Nat.min (b - s) (S n)) with (S (Nat.min (b - S s) n)) by lia. reflexivity.
          - apply Nat.ltb_ge in Hsb. replace (b - s) with 0 by lia. cbn [Nat.min seq].
            assert (Hz : forall n s, b <= s -> filter (fun i => (a <=? i) && (i <? b)) (seq s n) = []).
            { clear. induction n as [|n IH]; intros s Hs; cbn [seq filter]; [reflexivity|]. rewrite (proj2 (Nat.ltb_ge s b)) by lia. rewrite andb_false_r. apply IH. lia. }
            apply Hz. lia. }
        rewrite Hg by lia. f_equal. lia.
      * apply Nat.ltb_ge in Hlt. replace (Nat.min b (a + S n) - a) with 0 by lia. cbn [seq].
        assert (Hz : forall n s, b <= s -> filter (fun i => (a <=? i) && (i <? b)) (seq s n) = []).
        { clear. induction n as [|n IH]; intros s Hs; cbn [seq filter]; [reflexivity|]. rewrite (proj2 (Nat.ltb_ge s b)) by lia. rewrite andb_false_r. apply IH. lia. }
        apply Hz. lia.
    + rewrite (proj2 (Nat.leb_gt a s)) by lia. cbn [andb]. rewrite IH by lia. f_equal. lia.
Qed.

Lemma mapM_ret_iff {A B} (f : A -> outcome B) l r : mapM f l = Ret r <-> Forall2 (fun a b => f a = Ret b) l r.
Proof. split; [apply mapM_inv|apply mapM_intro]. Qed.

(** the queries of [start, n), split at stop *)
Lemma rfq_append E c a b d v : a <= b -> b <= d ->
  run_flp_queries E c a d = Ret v <-> exists v1 v2, run_flp_queries E c a b = Ret v1 /\ run_flp_queries E c b d = Ret v2 /\ v = v1 ++ v2.
Proof.
  intros Hab Hbd. rewrite !run_flp_queries_split. destruct (flp_pre E c) as [[[n nl] nr]|p]; cbn [bind].
  2:{ split; [discriminate|intros (? & ? & ? & _); discriminate]. }
  rewrite !filter_range by lia. cbn [Nat.add].
  assert (Hs : seq a (Nat.min d n - a) = seq a (Nat.min b n - a) ++ seq b (Nat.min d n - b)).
  { destruct (le_lt_dec b n) as [H|H].
    - rewrite (Nat.min_l b n) by exact H. rewrite <- (Nat.sub_add a b Hab) at 2. rewrite Nat.add_comm, <- seq_app. f_equal. lia.
    - rewrite (Nat.min_r b n), (Nat.min_r d n) by lia. replace (n - b) with 0 by lia. cbn [seq]. rewrite app_nil_r. reflexivity. }
  rewrite Hs, mapM_app. split.
  - intros H. bret H as v1 H1. bret H as v2 H2. injection H as <-. eauto.
  - intros (v1 & v2 & H1 & H2 & ->). rewrite H1. cbn [bind]. rewrite H2. reflexivity.
Qed.
Lemma rfq_length E c a b v : a <= b -> run_flp_queries E c a b = Ret v -> exists n0, nth_error (c_frontier c) 0 = Some n0 /\ length v = Nat.min b (length (tn_values n0)) - a.
Proof.
  intros Hab H. rewrite run_flp_queries_split in H. bret H as [[n nl] nr] Hp. rewrite filter_range in H by lia.
  unfold flp_pre in Hp. bret Hp as n0 Hn0. bret Hp as u1 H1. bret Hp as u2 H2. bret Hp as x Hx. bret Hp as y Hy. bret Hp as u3 H3.
  assert (Hn : length (tn_values n0) = n) by (apply (f_equal (fun o => match o with Ret (k, _, _) => k | Panic _ => 0 end)) in Hp; exact Hp).
  exists n0. split; [apply index_ret; exact Hn0|]. apply mapM_length in H. rewrite H, seq_length, Hn. cbn. reflexivity.
Qed.

Lemma flp_request E s a b s' r : s_poison s = false -> a < b ->
  handle E s (QRunFlpQueries a b) = (s', Ret r) <-> s' = s /\ exists v, r = AFields v /\ run_flp_queries E (s_coll s) a b = Ret v.
Proof.
  intros Hp Hab. rewrite handle_ret. cbn [prelock body]. rewrite (proj2 (Nat.ltb_lt _ _) Hab), debug_assert_true by reflexivity. cbn [bind]. split.
  - intros (_ & _ & c & H & ->). bret H as v Hv. injection H as <- <-. split; [apply set_coll_id|eauto].
  - intros (-> & v & -> & Hv). split; [reflexivity|]. split; [exact Hp|]. rewrite Hv. cbn [bind]. exists (s_coll s).
    split; [reflexivity|symmetry; apply set_coll_id].
Qed.

Definition same_root_size (c0 c1 : coll) : Prop :=
  forall n0 n1, nth_error (c_frontier c0) 0 = Some n0 -> nth_error (c_frontier c1) 0 = Some n1 -> length (tn_values n0) = length (tn_values n1).

Lemma combine_app {A B} (a1 : list A) : forall a2 (b1 b2 : list B), length a1 = length b1 -> combine (a1 ++ a2) (b1 ++ b2) = combine a1 b1 ++ combine a2 b2.
Proof. induction a1 as [|x a1 IH]; intros a2 [|y b1] b2 H; cbn in *; try discriminate; [reflexivity|]. rewrite IH by lia. reflexivity. Qed.

Lemma flp_loop_spec E cfg s0 s1 n : 0 < cfg_query_batch cfg -> s_poison s0 = false -> s_poison s1 = false -> same_root_size (s_coll s0) (s_coll s1) ->
  forall fuel start keep, n - start <= fuel -> start < n -> forall s0' s1' keep',
  flp_loop fuel E cfg s0 s1 n start keep = Ret (s0', s1', keep') <->
  s0' = s0 /\ s1' = s1 /\ exists v0 v1 ks, run_flp_queries E (s_coll s0) start n = Ret v0 /\ run_flp_queries E (s_coll s1) start n = Ret v1 /\
    mapM (flp_decide_pair E (cfg_hist cfg)) (combine v0 v1) = Ret ks /\ keep' = keep ++ ks.
Proof.
  intros Hb H0 H1 Hsz. induction fuel as [|f IH]; intros start keep Hf Hlt s0' s1' keep'; [lia|].
  cbn [flp_loop]. rewrite (proj2 (Nat.ltb_lt _ _) Hlt). set (stop := Nat.min n (start + cfg_query_batch cfg)).
  assert (Hstop : start < stop <= n) by (unfold stop; lia).
  assert (Hlens : forall v0 v1, run_flp_queries E (s_coll s0) start stop = Ret v0 -> run_flp_queries E (s_coll s1) start stop = Ret v1 -> length v0 = length v1).
  { intros v0 v1 Hv0 Hv1. apply rfq_length in Hv0; [|lia]. apply rfq_length in Hv1; [|lia].
    destruct Hv0 as (x0 & Hx0 & ->), Hv1 as (x1 & Hx1 & ->). rewrite (Hsz _ _ Hx0 Hx1). reflexivity. }
  split.
  - intros H. bret H as [[t0 t1] [r0 r1]] Hc. apply call2_ret in Hc. destruct Hc as [Hc0 Hc1].
    apply flp_request in Hc0; [|exact H0|lia]. apply flp_request in Hc1; [|exact H1|lia].
    destruct Hc0 as (-> & v0 & -> & Hv0), Hc1 as (-> & v1 & -> & Hv1).
    bret H as u Hu. bret H as ks Hks.
    destruct (le_lt_dec n (start + cfg_query_batch cfg)) as [Hend|Hmore].
    + assert (Hsn : stop = n) by (unfold stop; lia). rewrite Hsn in *.
      assert (Hl : flp_loop f E cfg s0 s1 n (start + cfg_query_batch cfg) (keep ++ ks) = Ret (s0, s1, keep ++ ks)).
      { destruct f; cbn [flp_loop]; rewrite (proj2 (Nat.ltb_ge _ _) Hend); reflexivity. }
      rewrite Hl in H. injection H as <- <- <-. split; [reflexivity|]. split; [reflexivity|]. eauto 10.
    + assert (Hsn : stop = start + cfg_query_batch cfg) by (unfold stop; lia). rewrite Hsn in *.
      apply IH in H; [|lia|lia]. destruct H as (-> & -> & w0 & w1 & ks' & Hw0 & Hw1 & Hks' & ->).
      split; [reflexivity|]. split; [reflexivity|]. exists (v0 ++ w0), (v1 ++ w1), (ks ++ ks').
      split; [apply (rfq_append _ _ _ (start + cfg_query_batch cfg)); [lia|lia|eauto]|].
      split; [apply (rfq_append _ _ _ (start + cfg_query_batch cfg)); [lia|lia|eauto]|].
      split; [|apply eq_sym, app_assoc]. rewrite combine_app by (apply Hlens; assumption). rewrite mapM_app, Hks. cbn [bind]. rewrite Hks'. reflexivity.
  - intros (-> & -> & v0 & v1 & ks & Hv0 & Hv1 & Hks & ->).
    apply (rfq_append _ _ _ stop) in Hv0; [|lia|lia]. apply (rfq_append _ _ _ stop) in Hv1; [|lia|lia].
    destruct Hv0 as (a0 & b0 & Ha0 & Hb0 & ->), Hv1 as (a1 & b1 & Ha1 & Hb1 & ->).
    pose proof (Hlens _ _ Ha0 Ha1) as Hla. rewrite combine_app in Hks by exact Hla. rewrite mapM_app in Hks.
    bret Hks as k1 Hk1. bret Hks as k2 Hk2. injection Hks as <-.
    rewrite (proj2 (call2_ret E s0 s1 (QRunFlpQueries start stop) (QRunFlpQueries start stop) s0 s1 (AFields a0) (AFields a1))).
    2:{ split; apply flp_request; try assumption; try lia; eauto. }
    cbn [bind]. rewrite debug_assert_true by (apply Nat.eqb_eq; exact Hla). cbn [bind]. rewrite Hk1. cbn [bind].
    destruct (le_lt_dec n (start + cfg_query_batch cfg)) as [Hend|Hmore].
    + assert (Hsn : stop = n) by (unfold stop; lia). rewrite Hsn in *.
      pose proof (rfq_length _ _ _ _ _ (Nat.le_refl n) Hb0) as (x0 & _ & Hx0).
      assert (b0 = []) by (destruct b0; [reflexivity|cbn in Hx0; lia]). subst b0. cbn [combine mapM] in Hk2. injection Hk2 as <-.
      rewrite app_nil_r.
      destruct f; cbn [flp_loop]; rewrite (proj2 (Nat.ltb_ge _ _) Hend); reflexivity.
    + assert (Hsn : stop = start + cfg_query_batch cfg) by (unfold stop; lia). rewrite Hsn in *.
      apply IH; [lia|lia|]. split; [reflexivity|]. split; [reflexivity|]. exists b0, b1, k2. rewrite app_assoc. auto.
Qed.
Lemma flp_loop_batch E cfg1 cfg2 s0 s1 n fuel1 fuel2 s0' s1' keep :
  0 < cfg_query_batch cfg1 -> 0 < cfg_query_batch cfg2 -> cfg_hist cfg1 = cfg_hist cfg2 -> n <= fuel1 -> n <= fuel2 ->
  s_poison s0 = false -> s_poison s1 = false -> same_root_size (s_coll s0) (s_coll s1) ->
  flp_loop fuel1 E cfg1 s0 s1 n 0 [] = Ret (s0', s1', keep) -> flp_loop fuel2 E cfg2 s0 s1 n 0 [] = Ret (s0', s1', keep).
Proof.
  intros Hb1 Hb2 Hh Hf1 Hf2 H0 H1 Hsz H. destruct n as [|n].
  - destruct fuel1, fuel2; cbn in *; exact H.
  - apply (flp_loop_spec E cfg1) in H; try assumption; try lia. apply (flp_loop_spec E cfg2); try assumption; try lia. rewrite <- Hh. exact H.
Qed.

(** *** C45 *)
Definition not_fuel {A} (m : outcome A) : Prop := m <> Panic PFuel.
Lemma level_loop_bound {S} (ask : S -> nat -> list nat -> bool -> outcome (S * crawl_answer * crawl_answer)) len n thr :
  (forall s sp m l, not_fuel (ask s sp m l)) ->
  forall (k split : nat) (s : S) (m : list nat) (l : bool), n <= split * 2 ^ k -> 1 <= split ->
  let B := (k + (if l then 1 else 2)) in
  (forall fuel, B <= fuel -> level_loop fuel ask len n thr s split m l = level_loop B ask len n thr s split m l) /\
  not_fuel (level_loop B ask len n thr s split m l) /\
  forall s' keep r, level_loop B ask len n thr s split m l = Ret (s', keep, r) -> r <= B.
Proof.
  intros Hask.
  assert (Hidx : forall A (x : list A) i, not_fuel (index x i)) by (intros A x i; unfold index, not_fuel; destruct (nth_error x i); discriminate).
  assert (Hmis : forall a0 a1, not_fuel (mismatches a0 a1)).
  { intros [[v0 r0] i0] [[v1 r1] i1]. unfold mismatches. match goal with |- not_fuel (foldM ?f _ _) => set (g := f) end. generalize (@nil nat). generalize (seq 0 (length r0)).
    intros q. induction q as [|i q IH]; intros acc; cbn [foldM]; [discriminate|]. unfold g at 1.
    unfold index. destruct (nth_error r0 i); cbn [bind]; [|discriminate]. destruct (nth_error r1 i); cbn [bind]; [|discriminate].
    destruct (bytes_eqb _ _); cbn [bind]; [apply IH|]. destruct (nth_error i0 i); cbn [bind]; [|discriminate].
    destruct (nth_error i1 i); cbn [bind]; [|discriminate]. unfold assert_. destruct (_ =? _); cbn [bind]; [apply IH|discriminate]. }
  assert (Hkv : forall c0 c1, not_fuel (keep_values len thr c0 c1)).
  { intros c0 c1. unfold keep_values. induction (combine c0 c1) as [|[v w] q IH]; cbn [mapM]; [discriminate|].
    cbn [fst snd]. unfold index. destruct (nth_error v len); cbn [bind]; [|discriminate]. destruct (nth_error w len); cbn [bind]; [|discriminate].
    destruct (mapM _ q) as [x|p]; cbn [bind]; [discriminate|]. intros Hc. injection Hc as ->. apply IH. reflexivity. }
  (* one step *)
  assert (Hgen : forall B1 (split : nat) (s : S) (m : list nat) (l : bool),
    (forall s m' , n <= split -> l = false ->
       (forall fuel, B1 <= fuel -> level_loop fuel ask len n thr s split m' true = level_loop B1 ask len n thr s split m' true) /\
       not_fuel (level_loop B1 ask len n thr s split m' true) /\
       forall s' keep r, level_loop B1 ask len n thr s split m' true = Ret (s', keep, r) -> r <= B1) ->
    (forall s m', split < n ->
       (forall fuel, B1 <= fuel -> level_loop fuel ask len n thr s (split * 2) m' l = level_loop B1 ask len n thr s (split * 2) m' l) /\
       not_fuel (level_loop B1 ask len n thr s (split * 2) m' l) /\
       forall s' keep r, level_loop B1 ask len n thr s (split * 2) m' l = Ret (s', keep, r) -> r <= B1) ->
    (forall fuel, B1 + 1 <= fuel -> level_loop fuel ask len n thr s split m l = level_loop (B1 + 1) ask len n thr s split m l) /\
    not_fuel (level_loop (B1 + 1) ask len n thr s split m l) /\
    forall s' keep r, level_loop (B1 + 1) ask len n thr s split m l = Ret (s', keep, r) -> r <= B1 + 1).
  { intros B1 split s m l Hlast Hmore. replace (B1 + 1) with (Datatypes.S B1) by lia. cbn [level_loop].
    pose proof (Hask s split m l) as Ha. destruct (ask s split m l) as [[[s2 [[v0 r0] i0]] [[v1 r1] i1]]|p] eqn:Hq; cbn [bind].
    2:{ split; [|split; [intros Hc; apply Ha; congruence|discriminate]]. intros [|fuel] Hf; [lia|]. cbn [level_loop]. rewrite Hq. reflexivity. }
    destruct (assert_ (length v0 =? length v1)) as [u|p] eqn:Hass; cbn [bind].
    2:{ assert (p = PAssert) by (unfold assert_ in Hass; destruct (_ =? _); congruence). subst p.
        split; [|split; discriminate]. intros [|fuel] Hf; [lia|]. cbn [level_loop]. rewrite Hq. cbn [bind]. rewrite Hass. reflexivity. }
    pose proof (Hkv v0 v1) as Hk. destruct (keep_values len thr v0 v1) as [keep0|p] eqn:Hkq; cbn [bind].
    2:{ split; [|split; [intros Hc; apply Hk; congruence|discriminate]].
        intros [|fuel] Hf; [lia|]. cbn [level_loop]. rewrite Hq. cbn [bind]. rewrite Hass. cbn [bind]. rewrite Hkq. reflexivity. }
    destruct (length r0 =? 0) eqn:Hr0.
    { split; [|split; [discriminate|intros s' keep r H; injection H as _ _ <-; lia]].
      intros [|fuel] Hf; [lia|]. cbn [level_loop]. rewrite Hq. cbn [bind]. rewrite Hass. cbn [bind]. rewrite Hkq. cbn [bind]. rewrite Hr0. reflexivity. }
    pose proof (Hmis (v0, r0, i0) (v1, r1, i1)) as Hm. destruct (mismatches (v0, r0, i0) (v1, r1, i1)) as [mal|p] eqn:Hmq; cbn [bind].
    2:{ split; [|split; [intros Hc; apply Hm; congruence|discriminate]].
        intros [|fuel] Hf; [lia|]. cbn [level_loop]. rewrite Hq. cbn [bind]. rewrite Hass. cbn [bind]. rewrite Hkq. cbn [bind]. rewrite Hr0, Hmq. reflexivity. }
    assert (Hunf : forall fuel, level_loop (Datatypes.S fuel) ask len n thr s split m l =
       match mal with [] => Ret (s2, keep0, 1) | _ =>
          if n <=? split then if l then Ret (s2, keep0, 1)
            else let! '(s, k, n0) := level_loop fuel ask len n thr s2 split mal true in Ret (s, k, n0 + 1)
          else let! '(s, k, n0) := level_loop fuel ask len n thr s2 (split * 2) mal l in Ret (s, k, n0 + 1) end).
    { intros fuel. cbn [level_loop]. rewrite Hq. cbn [bind]. rewrite Hass. cbn [bind]. rewrite Hkq. cbn [bind]. rewrite Hr0, Hmq. reflexivity. }
    destruct mal as [|m1 mal].
    { split; [|split; [discriminate|intros s' keep r H; injection H as _ _ <-; lia]]. intros [|fuel] Hf; [lia|]. rewrite Hunf. reflexivity. }
    destruct (n <=? split) eqn:Hns.
    - apply Nat.leb_le in Hns. destruct l.
      + split; [|split; [discriminate|intros s' keep r H; injection H as _ _ <-; lia]]. intros [|fuel] Hf; [lia|]. rewrite Hunf. reflexivity.
      + destruct (Hlast s2 (m1 :: mal) Hns eq_refl) as (HA & HB & HC). split; [|split].
        * intros [|fuel] Hf; [lia|]. rewrite Hunf, HA by lia. reflexivity.
        * destruct (level_loop B1 ask len n thr s2 split (m1 :: mal) true) as [[[a b] c]|p]; cbn [bind]; [discriminate|exact (fun H => HB ltac:(congruence))].
        * intros s' keep r H. bret H as [[a b] c] Hr. injection H as <- <- <-. specialize (HC _ _ _ Hr). lia.
    - apply Nat.leb_gt in Hns. destruct (Hmore s2 (m1 :: mal) Hns) as (HA & HB & HC). split; [|split].
      + intros [|fuel] Hf; [lia|]. rewrite Hunf, HA by lia. reflexivity.
      + destruct (level_loop B1 ask len n thr s2 (split * 2) (m1 :: mal) l) as [[[a b] c]|p]; cbn [bind]; [discriminate|exact (fun H => HB ltac:(congruence))].
      + intros s' keep r H. bret H as [[a b] c] Hr. injection H as <- <- <-. specialize (HC _ _ _ Hr). lia. }
  (* is_last = true, split >= n *)
  assert (Hlast : forall split s m, n <= split ->
    (forall fuel, 1 <= fuel -> level_loop fuel ask len n thr s split m true = level_loop 1 ask len n thr s split m true) /\
    not_fuel (level_loop 1 ask len n thr s split m true) /\
    forall s' keep r, level_loop 1 ask len n thr s split m true = Ret (s', keep, r) -> r <= 1).
  { intros split s m Hn. apply (Hgen 0); [discriminate|]. intros; lia. }
  induction k as [|k IH]; intros split s m l Hn Hs; cbn zeta.
  - cbn [Nat.pow] in Hn. destruct l; [apply Hlast; lia|]. apply (Hgen 1).
    + intros. apply Hlast. assumption.
    + intros. lia.
  - replace (Datatypes.S k + (if l then 1 else 2)) with (k + (if l then 1 else 2) + 1) by lia. apply Hgen.
    + intros s2 m' Hns ->. destruct (Hlast split s2 m' Hns) as (HA & HB & HC). split; [|split].
      * intros fuel Hf. rewrite (HA fuel), (HA (k + 2)) by lia. reflexivity.
      * rewrite HA by lia. exact HB.
      * intros s' keep r. rewrite HA by lia. intros H. apply HC in H. lia.
    + intros s2 m' Hns. apply (IH (split * 2) s2 m' l); [|lia]. cbn [Nat.pow] in Hn. nia.
Qed.
Lemma log2_up_pow n : n <= 2 ^ Nat.log2_up n.
Proof. destruct (le_lt_dec n 1) as [H|H]; [|apply Nat.log2_up_spec; exact H]. pose proof (Nat.pow_nonzero 2 (Nat.log2_up n)). lia. Qed.
Lemma level_requests {S} (ask : S -> nat -> list nat -> bool -> outcome (S * crawl_answer * crawl_answer)) len n thr s fuel :
  (forall s sp m l, not_fuel (ask s sp m l)) -> Nat.log2_up n + 2 <= fuel ->
  not_fuel (level_loop fuel ask len n thr s 1 [] false) /\
  (forall s' keep r, level_loop fuel ask len n thr s 1 [] false = Ret (s', keep, r) -> r <= Nat.log2_up n + 2) /\
  level_loop fuel ask len n thr s 1 [] false = level_loop (Nat.log2_up n + 2) ask len n thr s 1 [] false.
Proof.
  intros Hask Hf. assert (Hn : n <= 1 * 2 ^ Nat.log2_up n) by (rewrite Nat.mul_1_l; apply log2_up_pow).
  destruct (level_loop_bound ask len n thr Hask (Nat.log2_up n) 1 s [] false Hn (Nat.le_refl 1)) as (HA & HB & HC).
  rewrite (HA _ Hf). split; [exact HB|]. split; [exact HC|reflexivity].
Qed.

(** *** C31 *)
Lemma printed_spec len rs : Forall (fun r => len - 1 < length (res_value r)) rs ->
  printed len rs = Ret (filter (fun r => negb (fval (nth (len - 1) (res_value r) (of_Z 0)) =? 0)%Z) rs).
Proof.
  intros H. unfold printed.
  assert (Hg : forall acc, foldM (fun acc r => let! x := index (res_value r) (len - 1) in Ret (if fpos x then acc ++ [r] else acc)) acc rs =
     Ret (acc ++ filter (fun r => negb (fval (nth (len - 1) (res_value r) (of_Z 0)) =? 0)%Z) rs)).
  { induction H as [|r rs Hr H IH]; intros acc; cbn [foldM filter]; [rewrite app_nil_r; reflexivity|].
    rewrite (index_nth _ _ (of_Z 0) Hr). cbn [bind]. rewrite IH, fpos_nonzero.
    destruct (negb _); [rewrite <- app_assoc|]; reflexivity. }
  apply Hg.
Qed.

(** *** C32 *)
Lemma tamper_vidpf nonce k proof jr : length (root_seed k) = 16 -> tamper true (RSMastic nonce k proof jr) = Ret (RSMastic nonce k proof jr).
Proof. intros H. unfold tamper, get_root_seed. destruct (root_seed k) as [|b l]; [discriminate|]. reflexivity. Qed.
Lemma of_N_1337 : fval (of_N 1337) = 1337%Z.
Proof. vm_compute. reflexivity. Qed.
Lemma tamper_flp nonce k proof jr r : tamper false (RSMastic nonce k proof jr) = Ret r ->
  exists proof', r = RSMastic nonce k proof' jr /\ length proof' = length proof /\ proof' <> proof.
Proof.
  unfold tamper. intros H. bret H as x Hx. apply index_ret in Hx.
  assert (Hr : r = RSMastic nonce k (update 0 (fadd x (of_N 1337)) proof) jr) by congruence. subst r.
  eexists. split; [reflexivity|]. split; [apply update_length|]. intros Hc. destruct proof as [|y proof]; [discriminate|].
  cbn [nth_error] in Hx. injection Hx as ->. cbn [update] in Hc.
  assert (Hx' : fadd x (of_N 1337) = x) by congruence.
  assert (Hz : of_N 1337 = fzero) by (transitivity (fsub (fadd x (of_N 1337)) x); [ring|rewrite Hx'; ring]).
  apply (f_equal fval) in Hz. rewrite of_N_1337 in Hz. vm_compute in Hz. discriminate.
Qed.
Lemma tamper_prio3 c nonce pub inp r : tamper c (RSPrio3 nonce pub inp) = Ret r ->
  exists inp', r = RSPrio3 nonce pub inp' /\ length inp' = length inp /\ inp' <> inp.
Proof.
  unfold tamper. intros H. bret H as x Hx. apply index_ret in Hx. injection H as <-.
  exists (update 0 (N.lxor x 1) inp). split; [reflexivity|]. split; [apply update_length|]. intros Hc. destruct inp as [|y inp]; [discriminate|].
  cbn [nth_error] in Hx. injection Hx as ->. cbn [update] in Hc. injection Hc as Hc.
  assert (Hb : N.testbit (N.lxor x 1) 0 = N.testbit x 0) by (rewrite Hc; reflexivity).
  rewrite N.lxor_spec in Hb. cbn in Hb. destruct (N.testbit x 0); discriminate.
Qed.

(** *** C35 *)
Lemma mapM_panic_in {A B} (f : A -> outcome B) l x : In x l -> (exists p, f x = Panic p) -> exists p, mapM f l = Panic p.
Proof.
  intros Hin [p Hp]. induction l as [|a l IH]; [contradiction|]. cbn [mapM]. destruct Hin as [->|Hin].
  - rewrite Hp. cbn. eauto.
  - destruct (f a); cbn [bind]; [|eauto]. destruct (IH Hin) as [p' ->]. cbn. eauto.
Qed.
Lemma sample_oob reports samples : In (length reports) samples -> exists p, sample_attributes reports samples = Panic p.
Proof.
  intros H. unfold sample_attributes.
  destruct (mapM_panic_in (fun s => let! r := index reports s in unwrap_alpha r) samples (length reports) H) as [p Hp].
  { rewrite index_panic by lia. cbn. eauto. }
  rewrite Hp. cbn. eauto.
Qed.
Lemma sample_ok reports samples : (forall r, In r reports -> exists a, unwrap_alpha r = Ret a) ->
  (forall s, In s samples -> 1 <= s < length reports) -> exists attrs, sample_attributes reports samples = Ret attrs /\ NoDup attrs /\
  forall a, In a attrs <-> exists i r, In i samples /\ nth_error reports i = Some r /\ unwrap_alpha r = Ret a.
Proof.
  intros Hr Hs. unfold sample_attributes.
  assert (Hm : exists al, mapM (fun s => let! r := index reports s in unwrap_alpha r) samples = Ret al /\
     forall a, In a al <-> exists i r, In i samples /\ nth_error reports i = Some r /\ unwrap_alpha r = Ret a).
  { induction samples as [|s samples IH]; [exists []; split; [reflexivity|]; intros a; split; [intros []|intros (? & ? & [] & _)]|].
    destruct IH as (al & Hal & Hin); [intros; apply Hs; cbn; auto|].
    destruct (nth_error reports s) as [r|] eqn:Hn; [|apply nth_error_None in Hn; specialize (Hs s (or_introl eq_refl)); lia].
    destruct (Hr r (nth_error_In _ _ Hn)) as [a Ha]. exists (a :: al). cbn [mapM]. rewrite (index_some _ _ _ Hn). cbn [bind]. rewrite Ha. cbn [bind].
    rewrite Hal. split; [reflexivity|]. intros b. cbn [In]. split.
    - intros [<-|Hb]; [exists s, r; auto|]. apply Hin in Hb. destruct Hb as (i & r' & Hi & Hx). exists i, r'. auto.
    - intros (i & r' & [<-|Hi] & Hn' & Hb); [left; congruence|right; apply Hin; eauto]. }
  destruct Hm as (al & -> & Hin). cbn [bind]. eexists. split; [reflexivity|]. split; [apply NoDup_nodup|].
  intros a. rewrite nodup_In. apply Hin.
Qed.
