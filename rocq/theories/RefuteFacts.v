(** Proofs about the value check, malformed reports, empty frontiers and runs without FLP check. *)
From Verif Require Import Base BaseFacts Field Util UtilFacts Env Prg PrgFacts Vidpf VidpfFacts SpecTree VidpfTreeFacts Merkle Collect Server Driver
  SpecCollect SpecServer SpecDriver SpecCheck CollectFacts CollectInv ServerFacts DriverFacts DriverPropFacts.

(** *** C42 *)
Lemma lxor_mod a b n : (N.lxor a b mod 2 ^ n = N.lxor (a mod 2 ^ n) (b mod 2 ^ n))%N.
Proof.
  rewrite <- !N.land_ones. apply N.bits_inj. intros i. rewrite N.land_spec, !N.lxor_spec, !N.land_spec.
  destruct (N.testbit a i), (N.testbit b i), (N.testbit (N.ones n) i); reflexivity.
Qed.
Lemma lxor_div a b n : (N.lxor a b / 2 ^ n = N.lxor (a / 2 ^ n) (b / 2 ^ n))%N.
Proof. rewrite <- !N.shiftr_div_pow2. apply N.shiftr_lxor. Qed.
Lemma le_bytes_xor k : forall j a b, xor_in_place (le_bytes k a) (le_bytes (k + j) b) = le_bytes k (N.lxor a b).
Proof.
  induction k as [|k IH]; intros j a b; [reflexivity|]. rewrite !le_bytes_S. cbn [Nat.add xor_in_place]. rewrite ?le_bytes_S. rewrite IH. change 256%N with (2 ^ 8)%N. rewrite lxor_mod, lxor_div. reflexivity.
Qed.
Lemma le_bytes_mod k : forall x, le_bytes k (x mod 256 ^ N.of_nat k)%N = le_bytes k x.
Proof.
  induction k as [|k IH]; intros x; [reflexivity|]. rewrite ?le_bytes_S.
  assert (Hne : (256 ^ N.of_nat k <> 0)%N) by (apply N.pow_nonzero; discriminate).
  replace (256 ^ N.of_nat (S k))%N with (256 * 256 ^ N.of_nat k)%N by (rewrite Nnat.Nat2N.inj_succ, N.pow_succ_r'; reflexivity).
  rewrite N.mod_mul_r by (try exact Hne; discriminate). f_equal.
  - rewrite N.mul_comm, N.mod_add by discriminate. apply N.mod_mod. discriminate.
  - rewrite (N.mul_comm 256), N.div_add by discriminate. rewrite N.div_small by (apply N.mod_lt; discriminate). rewrite N.add_0_l. apply IH.
Qed.
Lemma low64_bytes a x : xor_in_place (le_bytes 8 a) (get_encoded x) = le_bytes 8 (N.lxor a (low64 x)).
Proof.
  unfold get_encoded, low64. change 16 with (8 + 8). rewrite le_bytes_xor. rewrite <- (le_bytes_mod 8 (N.lxor a (Z.to_N (fval x)))).
  rewrite <- (le_bytes_mod 8 (N.lxor a (Z.to_N (fval x mod 2 ^ 64)))). f_equal. change (256 ^ N.of_nat 8)%N with (2 ^ 64)%N.
  rewrite !lxor_mod. f_equal. rewrite Z2N.inj_mod by (try apply fval_range; discriminate). change (Z.to_N (2 ^ 64)) with (2 ^ 64)%N. rewrite N.mod_mod by discriminate. reflexivity.
Qed.
Lemma zeros8 : repeat 0%N 8 = le_bytes 8 0.  Proof. reflexivity. Qed.
Lemma lxor_assoc_fold a l : N.lxor a (xor_all l) = fold_left N.lxor l a.
Proof. revert a. induction l as [|x l IH]; intros a; cbn [xor_all fold_right fold_left]; [apply N.lxor_0_r|]. fold (xor_all l). rewrite <- N.lxor_assoc, IH. reflexivity. Qed.
Lemma xor_all_app l1 l2 : xor_all (l1 ++ l2) = N.lxor (xor_all l1) (xor_all l2).
Proof. induction l1 as [|x l IH]; cbn [app xor_all fold_right]; [reflexivity|]. fold (xor_all l). fold (xor_all (l ++ l2)). rewrite IH, N.lxor_assoc. reflexivity. Qed.
Lemma check_string c level checks client : check_shape (c_len c) client checks ->
  xor_checks c level checks client = Ret (le_bytes 8 (xor_all (map low64 (used_all level (c_len c) client checks)))).
Proof.
  intros Hs. unfold xor_checks. rewrite zeros8.
  assert (Hg : forall checks a, check_shape (c_len c) client checks ->
    foldM (fun check checks_for_prefix => if level =? 0 then let! cc := index checks_for_prefix client in let! x := index cc (c_len c) in Ret (xor_in_place check (get_encoded x))
      else foldM (fun check i => let! cc := index checks_for_prefix client in let! x := index cc i in Ret (xor_in_place check (get_encoded x))) check (seq 0 (c_len c))) (le_bytes 8 a) checks =
    Ret (le_bytes 8 (N.lxor a (xor_all (map low64 (used_all level (c_len c) client checks)))))).
  { clear. intros checks. induction checks as [|pc checks IH]; intros a Hs; cbn [foldM].
    - cbn. rewrite N.lxor_0_r. reflexivity.
    - destruct (Hs pc (or_introl eq_refl)) as (ck & Hck & Hl).
      assert (Hstep : (if level =? 0 then let! cc := index pc client in let! x := index cc (c_len c) in Ret (xor_in_place (le_bytes 8 a) (get_encoded x))
        else foldM (fun check i => let! cc := index pc client in let! x := index cc i in Ret (xor_in_place check (get_encoded x))) (le_bytes 8 a) (seq 0 (c_len c))) =
        Ret (le_bytes 8 (N.lxor a (xor_all (map low64 (used level (c_len c) ck)))))).
      { unfold used. destruct (level =? 0).
        - rewrite (index_some _ _ _ Hck). cbn [bind]. rewrite (index_nth _ _ (of_Z 0)) by lia. cbn [bind map xor_all fold_right]. rewrite low64_bytes, N.lxor_0_r. reflexivity.
        - assert (Hn : forall f : bytes -> nat -> outcome bytes, (forall a i x, nth_error ck i = Some x -> f a i = Ret (xor_in_place a (get_encoded x))) ->
            forall n s a, s + n <= length ck -> foldM f (le_bytes 8 a) (seq s n) = Ret (le_bytes 8 (N.lxor a (xor_all (map low64 (firstn n (skipn s ck))))))).
          { clear. intros f Hf. induction n as [|n IH]; intros s a H; cbn [seq foldM].
            - cbn. rewrite N.lxor_0_r. reflexivity.
            - destruct (nth_error ck s) as [x|] eqn:Hx; [|apply nth_error_None in Hx; lia].
              rewrite (Hf _ _ _ Hx). cbn [bind]. rewrite low64_bytes, IH by lia. rewrite (nth_skipn_cons _ _ _ Hx). cbn [firstn map xor_all fold_right].
              rewrite N.lxor_assoc. reflexivity. }
          match goal with |- foldM ?f _ _ = _ => rewrite (Hn f) by (try lia; intros; rewrite (index_some _ _ _ Hck); cbn [bind]; erewrite index_some by eassumption; reflexivity) end. reflexivity. }
      rewrite Hstep. cbn [bind]. rewrite IH by (intros q Hq; apply Hs; right; exact Hq). unfold used_all. cbn [map concat].
      rewrite (nth_error_nth _ _ [] Hck). rewrite map_app, xor_all_app, N.lxor_assoc. reflexivity. }
  rewrite Hg by exact Hs. rewrite N.lxor_0_l. reflexivity.
Qed.
Lemma low64_bound x : (low64 x < 2 ^ 64)%N.
Proof. unfold low64. pose proof (Z.mod_pos_bound (fval x) (2 ^ 64) eq_refl). change (2 ^ 64)%N with (Z.to_N (2 ^ 64)). apply Z2N.inj_lt; lia. Qed.
Lemma lxor_bound a b n : (a < 2 ^ n -> b < 2 ^ n -> N.lxor a b < 2 ^ n)%N.
Proof. intros Ha Hb. rewrite <- (N.mod_small a (2 ^ n)) by exact Ha. rewrite <- (N.mod_small b (2 ^ n)) by exact Hb. rewrite <- lxor_mod. apply N.mod_lt. apply N.pow_nonzero. discriminate. Qed.
Lemma xor_all_bound l : (xor_all (map low64 l) < 2 ^ 64)%N.
Proof. induction l as [|x l IH]; cbn [map xor_all fold_right]; [reflexivity|]. apply lxor_bound; [apply low64_bound|exact IH]. Qed.
(** two clients' check strings agree iff the xors of the low halves do *)
Lemma check_strings_agree c0 c1 level ch0 ch1 i0 i1 s0 s1 : check_shape (c_len c0) i0 ch0 -> check_shape (c_len c1) i1 ch1 ->
  xor_checks c0 level ch0 i0 = Ret s0 -> xor_checks c1 level ch1 i1 = Ret s1 ->
  (s0 = s1 <-> xor_all (map low64 (used_all level (c_len c0) i0 ch0)) = xor_all (map low64 (used_all level (c_len c1) i1 ch1))).
Proof.
  intros H0 H1. rewrite !check_string by assumption. intros E0 E1.
  assert (Hr : forall A (a b : A), Ret a = Ret b -> a = b) by congruence. apply Hr in E0, E1. rewrite <- E0, <- E1. clear Hr E0 E1. split; [|intros ->; reflexivity].
  apply le_bytes_inj; change (256 ^ N.of_nat 8)%N with (2 ^ 64)%N; apply xor_all_bound.
Qed.
Lemma low64_shift x : (fval x + 2 ^ 64 < P)%Z -> low64 (fadd x (of_Z (2 ^ 64))) = low64 x /\ fadd x (of_Z (2 ^ 64)) <> x.
Proof.
  intros Hx. pose proof (fval_range x) as Hr. assert (Hv : fval (fadd x (of_Z (2 ^ 64))) = (fval x + 2 ^ 64)%Z).
  { unfold fadd. rewrite !fval_of_Z. change (2 ^ 64 mod P)%Z with (2 ^ 64)%Z. apply Z.mod_small. lia. }
  split.
  - unfold low64. rewrite Hv. f_equal. replace (fval x + 2 ^ 64)%Z with (fval x + 1 * 2 ^ 64)%Z by lia. apply Z.mod_add. discriminate.
  - intros He. apply (f_equal fval) in He. rewrite Hv in He. lia.
Qed.
(** adding 2^64 to a used component of the check (or to a value share behind it) goes unnoticed *)
Lemma xor_all_update l i x : nth_error l i = Some x -> (fval x + 2 ^ 64 < P)%Z -> xor_all (map low64 (update i (fadd x (of_Z (2 ^ 64))) l)) = xor_all (map low64 l).
Proof.
  revert i. induction l as [|y l IH]; intros [|i] H Hx; cbn [nth_error update map xor_all fold_right] in *; try discriminate.
  - injection H as ->. rewrite (proj1 (low64_shift x Hx)). reflexivity.
  - fold (xor_all (map low64 (update i (fadd x (of_Z (2 ^ 64))) l))). rewrite IH by assumption. reflexivity.
Qed.
Lemma firstn_update {A} n : forall i (a : A) l, firstn n (update i a l) = update i a (firstn n l).
Proof. induction n as [|n IH]; intros i a l; [destruct i; reflexivity|]. destruct l as [|x l]; [destruct i; reflexivity|]. destruct i; cbn [update firstn]; [reflexivity|]. rewrite IH. reflexivity. Qed.
Lemma check_unnoticed c level pre per_client post client check i x :
  check_shape (c_len c) client (pre ++ per_client :: post) -> nth_error per_client client = Some check -> nth_error check i = Some x ->
  (fval x + 2 ^ 64 < P)%Z ->
  xor_checks c level (pre ++ update client (update i (fadd x (of_Z (2 ^ 64))) check) per_client :: post) client =
  xor_checks c level (pre ++ per_client :: post) client /\ update i (fadd x (of_Z (2 ^ 64))) check <> check.
Proof.
  intros Hs Hc Hi Hx. split.
  2:{ intros He. apply (f_equal (fun l => nth_error l i)) in He. rewrite update_nth_eq in He by (apply nth_error_Some; congruence). rewrite Hi in He. injection He as He.
      apply (proj2 (low64_shift x Hx)). exact He. }
  assert (Hcl : client < length per_client) by (apply nth_error_Some; congruence).
  rewrite (check_string c level (pre ++ per_client :: post)) by exact Hs. rewrite check_string.
  2:{ intros q Hq. apply in_app_iff in Hq. destruct Hq as [Hq|[<-|Hq]]; [apply Hs, in_app_iff; auto| |apply Hs, in_app_iff; right; right; exact Hq].
      exists (update i (fadd x (of_Z (2 ^ 64))) check). rewrite update_nth_eq by exact Hcl. split; [reflexivity|]. rewrite update_length.
      destruct (Hs per_client) as (ck & Hck & Hl); [apply in_app_iff; right; left; reflexivity|]. congruence. }
  do 2 f_equal. unfold used_all. rewrite !map_app. cbn [map]. rewrite !concat_app. cbn [concat]. rewrite !map_app, !xor_all_app. f_equal. f_equal.
  rewrite (nth_error_nth _ _ [] Hc). rewrite (nth_error_nth (update client _ per_client) client [] (x := update i (fadd x (of_Z (2 ^ 64))) check)) by (apply update_nth_eq; exact Hcl).
  unfold used. destruct (level =? 0).
  - cbn [map xor_all fold_right]. f_equal. destruct (Nat.eq_dec i (c_len c)) as [->|Hne].
    + rewrite (nth_error_nth (update _ _ _) _ _ (x := fadd x (of_Z (2 ^ 64)))) by (apply update_nth_eq, nth_error_Some; congruence). rewrite (nth_error_nth _ _ _ Hi). apply (proj1 (low64_shift x Hx)).
    + f_equal. destruct (nth_error check (c_len c)) as [y|] eqn:Hy.
      * rewrite (nth_error_nth _ _ _ Hy). apply nth_error_nth. rewrite update_nth_neq by exact Hne. exact Hy.
      * apply nth_error_None in Hy. rewrite !nth_overflow; [reflexivity|exact Hy|rewrite update_length; exact Hy].
  - rewrite firstn_update. destruct (le_lt_dec (c_len c) i) as [Hge|Hlt].
    + rewrite update_oob; [reflexivity|]. rewrite firstn_length. lia.
    + apply xor_all_update; [|exact Hx]. rewrite nth_error_firstn. rewrite (proj2 (Nat.ltb_lt _ _) Hlt). exact Hi.
Qed.

(** *** C47 *)
Lemma handle_body_panic E s q p : s_poison s = false -> prelock E q = Ret tt -> body E s q = Panic p -> handle E s q = (set_poison s, Panic p).
Proof. intros Hs Hp Hb. unfold handle. rewrite Hp, Hs, Hb. reflexivity. Qed.
Lemma not_ret_panic {A} (m : outcome A) : (forall a, m <> Ret a) -> exists p, m = Panic p.
Proof. destruct m as [a|p]; [intros H; exfalso; apply (H a); reflexivity|eauto]. Qed.

Lemma wrong_type_tree E s i h nonce pub inp : s_poison s = false -> nth_error (c_reports (s_coll s)) i = Some (h, RSPrio3 nonce pub inp) ->
  handle E s QTreeInit = (set_poison s, Panic PExplicit).
Proof.
  intros Hs Hi. apply handle_body_panic; [exact Hs|reflexivity|]. cbn [body]. unfold tree_init.
  assert (Hm : mapM (fun hr : bool * report_share => let! k := unwrap_vidpf_key (snd hr) in Ret (eval_init k)) (c_reports (s_coll s)) = Panic PExplicit).
  { revert i Hi. induction (c_reports (s_coll s)) as [|[h' r'] l IH]; intros [|i] Hi; cbn [nth_error] in Hi; try discriminate.
    - injection Hi as -> ->. reflexivity.
    - cbn [mapM snd]. destruct r'; cbn [unwrap_vidpf_key bind]; [|reflexivity]. rewrite (IH i Hi). reflexivity. }
  rewrite Hm. reflexivity.
Qed.
Lemma wrong_type_pm E s i h nonce k proof jr a b : s_poison s = false -> nth_error (c_reports (s_coll s)) i = Some (h, RSMastic nonce k proof jr) ->
  a <= i < b -> exists p, handle E s (QPmValidate a b) = (set_poison s, Panic p).
Proof.
  intros Hs Hi Hab. assert (Hp : exists p, body E s (QPmValidate a b) = Panic p).
  { cbn [body]. unfold pm_validate. destruct (b <? a); [cbn; eauto|]. destruct (_ <? _)%Z; [cbn; eauto|]. destruct (negb _); [cbn; eauto|].
    destruct (mapM_panic_in (pm_validate_one E (s_coll s) (Z.to_nat (s_id s))) (seq a (b - a)) i) as [p Hp].
    - apply in_seq. lia.
    - unfold pm_validate_one. rewrite (index_some _ _ _ Hi). cbn. eauto.
    - rewrite Hp. cbn. eauto. }
  destruct Hp as [p Hp]. exists p. apply handle_body_panic; [exact Hs|cbn; apply debug_assert_true, Nat.ltb_lt; lia|exact Hp].
Qed.

Lemma eval_bit_short E k st d bs len : env_ok E -> length (es_seed st) = 16 -> length (cor_words k) <= es_level st -> eval_bit E k st d bs len = Panic PIndex.
Proof.
  intros Hok Hs Hl. unfold eval_bit. rewrite (expand_dir_spec E Hok) by exact Hs. cbn [bind po_bits po_seeds]. rewrite (index_panic (cor_words k)) by exact Hl.
  destruct (es_bit st); cbn [bind]; [reflexivity|]. destruct d; cbn [tget fst snd negb]; rewrite (convert_conv E Hok) by (apply (ks_block_length E Hok); rewrite mask_key_length; exact Hs);
    cbn [bind]; reflexivity.
Qed.
Lemma evals_level E k len p st w : evals E k len p st w -> es_level st = length p.
Proof.
  induction 1 as [|p st w d st' w' He IH Hb]; [reflexivity|]. unfold eval_bit in Hb. bret Hb as tau Ht. bret Hb as [sd nb] Hsd. bret Hb as [ns wd] Hc. bret Hb as wd2 Hw. bret Hb as hh Hh.
  assert (Hx : es_level st' = es_level st + 1) by (assert (Hr : forall A (a b : A), Ret a = Ret b -> a = b) by congruence; apply Hr, pair_equal_spec in Hb; destruct Hb as [<- _]; reflexivity).
  rewrite Hx, IH, app_length. cbn. lia.
Qed.
Lemma short_key_node E c n node d i h nonce k proof jr : env_ok E -> node_ok E (c_len c) (c_reports c) n node ->
  nth_error (c_reports c) i = Some (h, RSMastic nonce k proof jr) -> key_typed k -> length (cor_words k) <= length (tn_path node) ->
  exists p, make_tree_node E c node d = Panic p.
Proof.
  intros Hok Hn Hi Hty Hl. apply not_ret_panic. intros node' H. apply make_tree_node_inv in H. destruct H as (res & H & _). apply mapMi_nth in H. destruct H as [Hrl H].
  destruct (nth_error res i) as [x|] eqn:Hx; [|apply nth_error_None in Hx; assert (i < length (c_reports c)) by (apply nth_error_Some; congruence); lia].
  specialize (H i _ _ Hi Hx). cbn [snd unwrap_vidpf_key bind] in H. bret H as st Hst. apply index_ret in Hst. cbn in Hst. destruct Hn as (H1 & H2 & H3).
  assert (Hin : i < length (tn_states node)) by (apply nth_error_Some; congruence).
  destruct (nth_error (tn_values node) i) as [v|] eqn:Hv; [|apply nth_error_None in Hv; lia].
  destruct (H3 _ _ _ Hst Hv) as (h' & r' & k' & w & Hr & Hk & He & _). rewrite Hi in Hr. injection Hr as <- <-. cbn in Hk. injection Hk as <-.
  rewrite eval_bit_short in H; [discriminate|exact Hok| |].
  - apply (evals_typed E Hok k _ Hty) in He. apply He.
  - rewrite (evals_level _ _ _ _ _ _ He). exact Hl.
Qed.
Lemma crawl_children_panic E c b : (exists node, In node (c_frontier c) /\ exists p, make_tree_node E c node false = Panic p) -> exists p, crawl_children E c b = Panic p.
Proof.
  intros (node & Hin & p & Hp). unfold crawl_children.
  destruct (mapM_panic_in (fun node => do! (if b then let! d := unwrap (c_depth c) in assert_ (length (tn_path node) <=? d) else Ret tt);
      let! child_0 := make_tree_node E c node false in let! child_1 := make_tree_node E c node true in Ret [child_0; child_1]) (c_frontier c) node Hin) as [p' Hp'].
  - destruct (if b then _ else _) as [u|q]; cbn [bind]; [|eauto]. rewrite Hp. cbn. eauto.
  - rewrite Hp'. cbn. eauto.
Qed.
Lemma short_key E id bits h0 qs s i h nonce k proof jr node : env_ok E -> s = fst (handle_all E (server_start id bits h0) qs) -> s_poison s = false ->
  nth_error (c_reports (s_coll s)) i = Some (h, RSMastic nonce k proof jr) -> key_typed k ->
  In node (c_frontier (s_coll s)) -> length (cor_words k) <= length (tn_path node) ->
  (forall split last, exists p, handle E s (QTreeCrawl split [] last) = (set_poison s, Panic p)) /\ (exists p, handle E s QTreeCrawlLast = (set_poison s, Panic p)).
Proof.
  intros Hok Hs Hp Hi Hty Hin Hl.
  assert (Hinv : cinv E (s_coll s)) by (subst s; apply handle_all_cinv, cinv_new).
  destruct Hinv as [(n & Hn & Hf & _) _]. destruct (short_key_node E (s_coll s) n node false i h nonce k proof jr Hok (Hf _ Hin) Hi Hty Hl) as [p1 Hp1].
  assert (Hcc : forall b, exists p, crawl_children E (s_coll s) b = Panic p) by (intros b; apply crawl_children_panic; eauto).
  split.
  - intros split last. assert (Hb : exists p, body E s (QTreeCrawl split [] last) = Panic p).
    { cbn [body]. unfold tree_crawl. cbn [crawl_prepare bind]. destruct (index (c_frontier (s_coll s)) 0) as [n0|q]; cbn [bind]; [|eauto].
      destruct (if dbg E then _ else _) as [u|q]; cbn [bind]; [|eauto]. destruct (Hcc true) as [q Hq]. rewrite Hq. cbn. eauto. }
    destruct Hb as [q Hb]. exists q. apply handle_body_panic; [exact Hp|reflexivity|exact Hb].
  - destruct (Hcc false) as [q Hq]. exists q. apply handle_body_panic; [exact Hp|reflexivity|]. cbn [body]. unfold tree_crawl_last. rewrite Hq. reflexivity.
Qed.
Lemma bad_proof_share E s i h nonce k proof jr a b n : s_poison s = false -> root_of (s_coll s) n -> i < n -> a <= i < b ->
  nth_error (c_reports (s_coll s)) i = Some (h, RSMastic nonce k proof jr) ->
  (forall beta qr jrand, flp_query E (c_len (s_coll s)) beta proof qr jrand 2 = None) ->
  exists p, handle E s (QRunFlpQueries a b) = (set_poison s, Panic p).
Proof.
  intros Hs (node & Hf & Hn) Hin Hab Hi Hq.
  assert (Hp : exists p, run_flp_queries E (s_coll s) a b = Panic p).
  { apply not_ret_panic. intros v H. rewrite run_flp_queries_split in H. bret H as [[n' nl] nr] Hpre. unfold flp_pre in Hpre. rewrite Hf in Hpre. cbn [index nth_error bind] in Hpre.
    bret Hpre as u1 Hu1. bret Hpre as u2 Hu2. bret Hpre as x1 Hx1. bret Hpre as x2 Hx2. bret Hpre as u3 Hu3.
    assert (Hn' : n' = n). { apply (f_equal (fun o => match o with Ret (k, _, _) => k | Panic _ => 0 end)) in Hpre. cbn in Hpre. congruence. }
    subst n'. apply mapM_inv in H. assert (Hii : In i (filter (fun i => (a <=? i) && (i <? b)) (seq 0 n))).
    { apply filter_In. split; [apply in_seq; lia|]. apply andb_true_iff. split; [apply Nat.leb_le; lia|apply Nat.ltb_lt; lia]. }
    clear -H Hii Hi Hq. induction H as [|j y l r Hj H IH]; [destruct Hii|]. destruct Hii as [->|Hii]; [|apply IH; exact Hii].
    unfold flp_one in Hj. bret Hj as y0 Hy0. bret Hj as y1 Hy1. bret Hj as hr Hhr. rewrite (index_some _ _ _ Hi) in Hhr. injection Hhr as <-. cbn [snd unwrap_flp_proof_share bind] in Hj.
    bret Hj as qr Hqr. bret Hj as jr' Hjr. rewrite Hq in Hj. discriminate. }
  destruct Hp as [p Hp]. exists p. apply handle_body_panic; [exact Hs|reflexivity|]. cbn [body]. rewrite debug_assert_true by (apply Nat.ltb_lt; lia). cbn [bind]. rewrite Hp. reflexivity.
Qed.

(** *** C27 *)
Lemma empty_frontier_crawl E s split last : s_poison s = false -> c_frontier (s_coll s) = [] ->
  handle E s (QTreeCrawl split [] last) = (set_poison s, Panic PIndex).
Proof. intros Hs Hf. apply handle_body_panic; [exact Hs|reflexivity|]. cbn [body]. unfold tree_crawl. cbn [crawl_prepare bind]. rewrite Hf. reflexivity. Qed.
Lemma empty_frontier_level fuel E cfg s0 s1 n : s_poison s0 = false -> c_frontier (s_coll s0) = [] -> 0 < fuel ->
  run_level fuel E cfg s0 s1 n = Panic PIndex.
Proof.
  intros Hs Hf Hfu. destruct fuel as [|fuel]; [lia|]. unfold run_level. cbn [level_loop]. unfold ask_servers at 1. cbn [fst snd]. unfold call2. rewrite (empty_frontier_crawl E s0 1 false Hs Hf).
  destruct (handle E s1 _) as [t a]. reflexivity.
Qed.
Lemma empty_frontier_last fuel E cfg s0 s1 n : s_poison s0 = false -> s_poison s1 = false -> c_frontier (s_coll s0) = [] -> c_frontier (s_coll s1) = [] ->
  0 < cfg_query_batch cfg -> n <= fuel -> length (honest_indices (c_reports (s_coll s0))) = length (honest_indices (c_reports (s_coll s1))) ->
  exists t0 t1, run_level_last fuel E cfg s0 s1 n = Ret (t0, t1, []).
Proof.
  intros P0 P1 F0 F1 Hb Hfu Hlen. unfold run_level_last.
  assert (Hl : forall s, s_poison s = false -> c_frontier (s_coll s) = [] -> handle E s QTreeCrawlLast =
     (set_coll s (set_frontier (set_final (s_coll s) (repeat (repeat 0%N HASH_SIZE) (length (honest_indices (c_reports (s_coll s)))))) []), Ret (AFields []))).
  { intros s Hp Hf. apply handle_ret. split; [reflexivity|]. split; [exact Hp|]. eexists. split; [|reflexivity]. cbn [body]. unfold tree_crawl_last, crawl_children. rewrite Hf. cbn [mapM bind concat map].
    replace (mapM (xor_proofs []) (honest_indices (c_reports (s_coll s)))) with (@Ret (list bytes) (repeat (repeat 0%N HASH_SIZE) (length (honest_indices (c_reports (s_coll s)))))); [reflexivity|].
    induction (honest_indices (c_reports (s_coll s))) as [|j l IH]; [reflexivity|]. cbn [mapM xor_proofs foldM bind length repeat]. rewrite <- IH. reflexivity. }
  unfold call2 at 1. rewrite (Hl s0 P0 F0), (Hl s1 P1 F1). cbn [bind length Nat.eqb assert_ keep_values combine mapM].
  set (t0 := set_coll s0 _). set (t1 := set_coll s1 _).
  assert (Hpl : forall fuel st, n - st <= fuel -> proofs_loop fuel E cfg t0 t1 n st = Ret (t0, t1)).
  { clear fuel Hfu. induction fuel as [|fuel IH]; intros st Hst; cbn [proofs_loop].
    - rewrite (proj2 (Nat.ltb_ge _ _)) by lia. reflexivity.
    - destruct (st <? n) eqn:Hlt; [|reflexivity]. apply Nat.ltb_lt in Hlt. set (en := Nat.min n (st + cfg_query_batch cfg)).
      assert (Hse : st < en) by (unfold en; lia).
      assert (Hg : forall s, s_poison s = false -> handle E s (QGetProofs st en) = (s, Ret (AProofs (get_proofs (s_coll s) st en)))).
      { intros s Hp. apply handle_ret. split; [reflexivity|]. split; [exact Hp|]. exists (s_coll s). cbn [body]. rewrite debug_assert_true by (apply Nat.ltb_lt; exact Hse). split; [reflexivity|]. symmetry. apply set_coll_id. }
      unfold call2. rewrite (Hg t0 P0), (Hg t1 P1). cbn [bind].
      assert (He : get_proofs (s_coll t0) st en = get_proofs (s_coll t1) st en) by (unfold get_proofs, t0, t1; cbn; rewrite Hlen; reflexivity).
      rewrite He, Nat.eqb_refl. cbn [assert_ bind].
      assert (Ha : forallb (fun hh : bytes * bytes => bytes_eqb (fst hh) (snd hh)) (combine (get_proofs (s_coll t1) st en) (get_proofs (s_coll t1) st en)) = true).
      { generalize (get_proofs (s_coll t1) st en). intros q. induction q as [|x q IHq]; [reflexivity|]. cbn. rewrite bytes_eqb_refl. exact IHq. }
      rewrite Ha. cbn [assert_ bind]. apply IH. lia. }
  rewrite Hpl by lia. cbn [bind].
  unfold call2_done, call2. 
  assert (Hpr : forall s, s_poison s = false -> c_frontier (s_coll s) = [] -> handle E s (QTreePrune []) = (s, Ret ADone)).
  { intros s Hp Hf. apply handle_ret. split; [reflexivity|]. split; [exact Hp|]. exists (s_coll s). cbn [body]. unfold tree_prune. rewrite Hf. cbn. split; [|symmetry; apply set_coll_id]. do 2 f_equal. destruct (s_coll s); cbn in *; subst; reflexivity. }
  rewrite (Hpr t0 P0 eq_refl), (Hpr t1 P1 eq_refl). cbn [bind].
  assert (Hfs : forall s, s_poison s = false -> c_frontier (s_coll s) = [] -> handle E s QFinalShares = (s, Ret (AFinal []))).
  { intros s Hp Hf. apply handle_ret. split; [reflexivity|]. split; [exact Hp|]. exists (s_coll s). cbn [body]. unfold final_shares. rewrite Hf. split; [reflexivity|symmetry; apply set_coll_id]. }
  rewrite (Hfs t0 P0 eq_refl), (Hfs t1 P1 eq_refl). exists t0, t1. reflexivity.
Qed.

(** *** C46 *)
Lemma with_flp_ctr E q d n c : ctr_iter (with_flp E q d) n c = ctr_iter E n c.
Proof. induction n as [|n IH]; [reflexivity|]. cbn [ctr_iter]. rewrite IH. reflexivity. Qed.
Lemma with_flp_loop E q d fuel : forall s n p dest, fill_loop fuel (with_flp E q d) s n p dest = fill_loop fuel E s n p dest.
Proof.
  induction fuel as [|fuel IH]; intros s n p dest; [reflexivity|]. cbn [fill_loop]. destruct (p <? n); [|reflexivity].
  assert (Hr : refill8 (with_flp E q d) s = refill8 E s).
  { unfold refill8. rewrite with_flp_ctr. erewrite (map_ext (fun i => ctr_iter (with_flp E q d) i (ctr s))) by (intros i; apply with_flp_ctr). reflexivity. }
  rewrite Hr. change (refill (with_flp E q d) s) with (refill E s). destruct (if buf_ptr s =? have s then _ else _); cbn [bind]; [|reflexivity]. apply IH.
Qed.
Lemma with_flp_fill E q d s n : fill_bytes (with_flp E q d) s n = fill_bytes E s n.
Proof. apply with_flp_loop. Qed.
Lemma with_flp_expand E q d k l r : expand_dir (with_flp E q d) k l r = expand_dir E k l r.
Proof.
  unfold expand_dir, expand_dir_on. rewrite with_flp_fill. change (skip_block (with_flp E q d)) with (skip_block E).
  destruct (if l then _ else _) as [[s1 x]|]; cbn [bind]; [|reflexivity]. rewrite with_flp_fill. reflexivity.
Qed.
Lemma with_flp_draw E q d n : forall s, draw_fields (with_flp E q d) s n = draw_fields E s n.
Proof.
  induction n as [|n IH]; intros s; [reflexivity|]. cbn [draw_fields]. 
  assert (Hr : from_rng (with_flp E q d) s = from_rng E s).
  { unfold from_rng, next_u64. rewrite with_flp_fill. destruct (fill_bytes E s 8) as [[s1 b]|]; cbn [bind]; [|reflexivity]. rewrite with_flp_fill. reflexivity. }
  rewrite Hr.
  destruct (from_rng E s) as [[s1 x]|]; cbn [bind]; [|reflexivity]. rewrite IH. reflexivity.
Qed.
Lemma with_flp_eval_bit E q d k st b bs len : eval_bit (with_flp E q d) k st b bs len = eval_bit E k st b bs len.
Proof.
  unfold eval_bit. rewrite with_flp_expand.
  assert (Hc : forall key, convert (with_flp E q d) key len = convert E key len).
  { intros key. unfold convert, convert_on. rewrite with_flp_fill. destruct (fill_bytes E (set_key stream_new key) 16) as [[s1 sd]|]; cbn [bind]; [|reflexivity]. rewrite with_flp_draw. reflexivity. }
  destruct (expand_dir E _ _ _) as [tau|]; cbn [bind]; [|reflexivity]. destruct (if es_bit st then _ else _) as [[sd nb]|]; cbn [bind]; [|reflexivity]. rewrite Hc. reflexivity.
Qed.
Lemma mapM_same {A B} (f g : A -> outcome B) l : (forall a, f a = g a) -> mapM f l = mapM g l.
Proof. intros H. induction l as [|a l IH]; [reflexivity|]. cbn [mapM]. rewrite H, IH. reflexivity. Qed.
Lemma mapMi_same {A B} (f g : nat -> A -> outcome B) l : (forall i a, f i a = g i a) -> forall i, mapMi f i l = mapMi g i l.
Proof. intros H. induction l as [|a l IH]; intros i; [reflexivity|]. cbn [mapMi]. rewrite H, IH. reflexivity. Qed.
Lemma with_flp_children E q d c b : crawl_children (with_flp E q d) c b = crawl_children E c b.
Proof.
  assert (Hm : forall node dir, make_tree_node (with_flp E q d) c node dir = make_tree_node E c node dir).
  { intros node dir. unfold make_tree_node. erewrite mapMi_same; [reflexivity|]. intros i hr. cbn beta. destruct (unwrap_vidpf_key _); cbn [bind]; [|reflexivity]. destruct (index _ _); cbn [bind]; [|reflexivity]. apply with_flp_eval_bit. }
  unfold crawl_children. erewrite mapM_same; [reflexivity|]. intros node. cbn beta. rewrite !Hm. reflexivity.
Qed.
Lemma one_bit_no_flp fuel E cfg s0 s1 n q d : cfg_bits cfg = Some 1 -> run_whh fuel (with_flp E q d) cfg s0 s1 n = run_whh fuel E cfg s0 s1 n.
Proof.
  intros Hb. unfold run_whh. rewrite Hb. change (call2_done (with_flp E q d) s0 s1 QTreeInit QTreeInit) with (call2_done E s0 s1 QTreeInit QTreeInit).
  destruct (call2_done E s0 s1 QTreeInit QTreeInit) as [[t0 t1]|]; cbn [bind unwrap Nat.eqb Nat.sub levels_loop]; [|reflexivity].
  assert (Hh : forall s q', match q' with QTreeCrawlLast | QGetProofs _ _ | QTreePrune _ | QFinalShares => True | _ => False end -> handle (with_flp E q d) s q' = handle E s q').
  { intros s q' Hq. destruct q'; try contradiction; try reflexivity. unfold handle. cbn [prelock body]. unfold tree_crawl_last. rewrite with_flp_children. reflexivity. }
  unfold run_level_last. unfold call2 at 1. rewrite !Hh by exact I. change (let '(s0', a0) := handle E t0 QTreeCrawlLast in let '(s1', a1) := handle E t1 QTreeCrawlLast in let! r0 := a0 in let! r1 := a1 in Ret (s0', s1', (r0, r1))) with (call2 E t0 t1 QTreeCrawlLast QTreeCrawlLast).
  destruct (call2 E t0 t1 QTreeCrawlLast QTreeCrawlLast) as [[[u0 u1] [r0 r1]]|]; cbn [bind]; [|reflexivity].
  destruct r0; try reflexivity. destruct r1; try reflexivity. destruct (assert_ _); cbn [bind]; [|reflexivity]. destruct (keep_values _ _ _ _); cbn [bind]; [|reflexivity].
  assert (Hp : forall fuel u0 u1 st, proofs_loop fuel (with_flp E q d) cfg u0 u1 n st = proofs_loop fuel E cfg u0 u1 n st).
  { clear -Hh. induction fuel as [|fuel IH]; intros u0 u1 st; cbn [proofs_loop]; [reflexivity|]. destruct (st <? n); [|reflexivity].
    unfold call2. rewrite !Hh by exact I. destruct (handle E u0 _) as [w0 a0], (handle E u1 _) as [w1 a1]. destruct a0 as [x0|]; cbn [bind]; [|reflexivity]. destruct a1 as [x1|]; cbn [bind]; [|reflexivity].
    destruct x0; try reflexivity. destruct x1; try reflexivity. destruct (assert_ _); cbn [bind]; [|reflexivity]. destruct (assert_ _); cbn [bind]; [|reflexivity]. apply IH. }
  rewrite Hp. destruct (proofs_loop fuel E cfg u0 u1 n 0) as [[w0 w1]|]; cbn [bind]; [|reflexivity].
  unfold call2_done, call2. rewrite !Hh by exact I. destruct (handle E w0 _) as [x0 b0], (handle E w1 _) as [x1 b1]. destruct b0; cbn [bind]; [|reflexivity]. destruct b1; cbn [bind]; [|reflexivity].
  rewrite !Hh by exact I. reflexivity.
Qed.

(** requests of a driver that never resets *)
Definition reaches (E : env) (s s' : server) : Prop := exists qs, Forall not_reset qs /\ s' = fst (handle_all E s qs).
Lemma reaches_refl E s : reaches E s s.
Proof. exists []. split; [constructor|reflexivity]. Qed.
Lemma reaches_trans E a b c : reaches E a b -> reaches E b c -> reaches E a c.
Proof.
  intros (q1 & F1 & ->) (q2 & F2 & ->). exists (q1 ++ q2). split; [apply Forall_app; auto|]. rewrite handle_all_app.
  destruct (handle_all E a q1) as [x l1]. cbn [fst]. destruct (handle_all E x q2) as [y l2]. reflexivity.
Qed.
Lemma reaches_call2 E s0 s1 q0 q1 t0 t1 r : not_reset q0 -> not_reset q1 -> call2 E s0 s1 q0 q1 = Ret (t0, t1, r) -> reaches E s0 t0 /\ reaches E s1 t1.
Proof.
  intros N0 N1 H. destruct r as [r0 r1]. apply call2_ret in H. destruct H as [H0 H1]. split; [exists [q0]|exists [q1]]; (split; [constructor; [assumption|constructor]|]); cbn [handle_all]; rewrite ?H0, ?H1; reflexivity.
Qed.
Lemma reaches_done E s0 s1 q0 q1 t0 t1 : not_reset q0 -> not_reset q1 -> call2_done E s0 s1 q0 q1 = Ret (t0, t1) -> reaches E s0 t0 /\ reaches E s1 t1.
Proof. intros N0 N1 H. unfold call2_done in H. bret H as [[a b] r] Hc. injection H as <- <-. exact (reaches_call2 _ _ _ _ _ _ _ _ N0 N1 Hc). Qed.
Lemma reaches_level_loop E len n thr fuel : forall s sp m (l : bool) s' keep k, level_loop fuel (ask_servers E) len n thr s sp m l = Ret (s', keep, k) ->
  reaches E (fst s) (fst s') /\ reaches E (snd s) (snd s').
Proof.
  induction fuel as [|fuel IH]; intros s sp m l s' keep k H; cbn [level_loop] in H; [discriminate|].
  bret H as [[s2 [[v0 r0] i0]] [[v1 r1] i1]] Ha. bret H as u Hu. bret H as kp Hk.
  assert (Hr : reaches E (fst s) (fst s2) /\ reaches E (snd s) (snd s2)).
  { unfold ask_servers in Ha. bret Ha as [[a b] [x y]] Hc. apply reaches_call2 in Hc; [|exact I|exact I]. destruct x; try discriminate. destruct y; try discriminate. injection Ha as <- _ _ _ _ _ _. exact Hc. }
  destruct Hr as [R0 R1]. destruct (length r0 =? 0); [injection H as <- _ _; auto|]. bret H as mm Hm.
  destruct mm as [|m0 mm]; [injection H as <- _ _; auto|]. destruct (n <=? sp).
  - destruct l; [injection H as <- _ _; auto|]. bret H as [[a b] c] Hl. injection H as <- _ _. apply IH in Hl. split; eapply reaches_trans; eauto; apply Hl.
  - bret H as [[a b] c] Hl. injection H as <- _ _. apply IH in Hl. split; eapply reaches_trans; eauto; apply Hl.
Qed.
Lemma reaches_run_level fuel E cfg s0 s1 n t0 t1 : run_level fuel E cfg s0 s1 n = Ret (t0, t1) -> reaches E s0 t0 /\ reaches E s1 t1.
Proof.
  intros H. unfold run_level in H. bret H as [[ss keep] k] Hl. apply reaches_level_loop in Hl. cbn [fst snd] in Hl. apply reaches_done in H; [|exact I|exact I].
  split; eapply reaches_trans; [apply Hl|apply H|apply Hl|apply H].
Qed.
Lemma reaches_proofs E cfg n fuel : forall s0 s1 st t0 t1, proofs_loop fuel E cfg s0 s1 n st = Ret (t0, t1) -> reaches E s0 t0 /\ reaches E s1 t1.
Proof.
  induction fuel as [|fuel IH]; intros s0 s1 st t0 t1 H; cbn [proofs_loop] in H.
  - destruct (st <? n); [discriminate|]. injection H as <- <-. split; apply reaches_refl.
  - destruct (st <? n); [|injection H as <- <-; split; apply reaches_refl]. bret H as [[a b] [x y]] Hc. apply reaches_call2 in Hc; [|exact I|exact I].
    destruct x; try discriminate. destruct y; try discriminate. bret H as u Hu. bret H as u2 Hu2. apply IH in H. split; eapply reaches_trans; [apply Hc|apply H|apply Hc|apply H].
Qed.
Lemma reaches_last fuel E cfg s0 s1 n t0 t1 res : run_level_last fuel E cfg s0 s1 n = Ret (t0, t1, res) -> reaches E s0 t0 /\ reaches E s1 t1.
Proof.
  intros H. unfold run_level_last in H. bret H as [[a b] [x y]] Hc. apply reaches_call2 in Hc; [|exact I|exact I]. destruct x; try discriminate. destruct y; try discriminate.
  bret H as u Hu. bret H as kp Hk. bret H as [a1 b1] Hp. apply reaches_proofs in Hp. bret H as [a2 b2] Hd. apply reaches_done in Hd; [|exact I|exact I].
  bret H as [[a3 b3] [x y]] Hf. apply reaches_call2 in Hf; [|exact I|exact I]. destruct x; try discriminate. destruct y; try discriminate. bret H as rr Hr. injection H as <- <- <-.
  split; (eapply reaches_trans; [|eapply reaches_trans; [|eapply reaches_trans]]); [apply Hc|apply Hp|apply Hd|apply Hf|apply Hc|apply Hp|apply Hd|apply Hf].
Qed.
Lemma reaches_flp_loop E cfg n fuel : forall s0 s1 st kp t0 t1 keep, flp_loop fuel E cfg s0 s1 n st kp = Ret (t0, t1, keep) -> reaches E s0 t0 /\ reaches E s1 t1.
Proof.
  induction fuel as [|fuel IH]; intros s0 s1 st kp t0 t1 keep H; cbn [flp_loop] in H.
  - destruct (st <? n); [discriminate|]. injection H as <- <- _. split; apply reaches_refl.
  - destruct (st <? n); [|injection H as <- <- _; split; apply reaches_refl]. bret H as [[a b] [x y]] Hc. apply reaches_call2 in Hc; [|exact I|exact I].
    destruct x; try discriminate. destruct y; try discriminate. bret H as u Hu. bret H as u2 Hu2. apply IH in H. split; eapply reaches_trans; [apply Hc|apply H|apply Hc|apply H].
Qed.
Lemma reaches_flp fuel E cfg s0 s1 n t0 t1 : drv_run_flp_queries fuel E cfg s0 s1 n = Ret (t0, t1) -> reaches E s0 t0 /\ reaches E s1 t1.
Proof. intros H. unfold drv_run_flp_queries in H. bret H as [[a b] kp] Hl. apply reaches_flp_loop in Hl. apply reaches_done in H; [|exact I|exact I]. split; eapply reaches_trans; [apply Hl|apply H|apply Hl|apply H]. Qed.
Lemma reaches_levels E cfg n fuel lv : forall first s0 s1 t0 t1, levels_loop fuel E cfg s0 s1 n first lv = Ret (t0, t1) -> reaches E s0 t0 /\ reaches E s1 t1.
Proof.
  induction lv as [|lv IH]; intros first s0 s1 t0 t1 H; cbn [levels_loop] in H; [injection H as <- <-; split; apply reaches_refl|].
  bret H as [a b] Hf. bret H as [a2 b2] Hr. apply reaches_run_level in Hr. apply IH in H.
  assert (Hx : reaches E s0 a /\ reaches E s1 b) by (destruct first; [apply reaches_flp in Hf; exact Hf|injection Hf as <- <-; split; apply reaches_refl]).
  split; (eapply reaches_trans; [|eapply reaches_trans]); [apply Hx|apply Hr|apply H|apply Hx|apply Hr|apply H].
Qed.
Lemma reaches_reps E s s' : cinv E (s_coll s) -> reaches E s s' -> reps_le (c_reports (s_coll s)) (c_reports (s_coll s')) /\ cinv E (s_coll s').
Proof. intros Hc (qs & Hf & ->). split; [apply (handle_all_reps E qs s Hf Hc)|apply handle_all_cinv, Hc]. Qed.

(** with two or more bits every accepted report has passed the FLP decision *)
Lemma accepted_verified fuel E cfg s0 s1 n t0 t1 res b : cfg_bits cfg = Some b -> 2 <= b -> cinv E (s_coll s0) -> cinv E (s_coll s1) ->
  run_whh fuel E cfg s0 s1 n = Ret (t0, t1, res) ->
  exists u0 u1 keep w0 w1, call2_done E s0 s1 QTreeInit QTreeInit = Ret (u0, u1) /\ flp_loop fuel E cfg u0 u1 n 0 [] = Ret (w0, w1, keep) /\
    forall i, i < length (c_reports (s_coll s0)) -> (accepted t0 i \/ accepted t1 i) -> nth_error keep i = Some true.
Proof.
  intros Hb Hb2 C0 C1 H. unfold run_whh in H. rewrite Hb in H. bret H as [u0 u1] Hi. cbn [unwrap bind] in H. rewrite (proj2 (Nat.eqb_neq _ _)) in H by lia.
  bret H as [x0 x1] Hl. exists u0, u1. destruct b as [|[|b]]; try lia. cbn [Nat.sub levels_loop] in Hl. bret Hl as [y0 y1] Hf. bret Hl as [z0 z1] Hr.
  unfold drv_run_flp_queries in Hf. bret Hf as [[w0 w1] keep] Hlp. exists keep, w0, w1. split; [exact Hi|]. split; [exact Hlp|].
  pose proof (reaches_done _ _ _ QTreeInit QTreeInit _ _ I I Hi) as [RI0 RI1]. pose proof (reaches_flp_loop _ _ _ _ _ _ _ _ _ _ _ Hlp) as [RF0 RF1].
  pose proof (reaches_run_level _ _ _ _ _ _ _ _ Hr) as [RL0 RL1]. pose proof (reaches_levels _ _ _ _ _ _ _ _ _ _ Hl) as [RM0 RM1]. pose proof (reaches_last _ _ _ _ _ _ _ _ _ H) as [RN0 RN1].
  apply call2_done_ret in Hf. destruct Hf as (ra & rb & Ha & Hbb). apply handle_ret in Ha. apply handle_ret in Hbb. destruct Ha as (_ & _ & ca & Hba & ->), Hbb as (_ & _ & cb & Hbb & ->).
  cbn [body] in Hba, Hbb. bret Hba as c0' Hc0. bret Hbb as c1' Hc1. assert (ca = c0') by congruence. assert (cb = c1') by congruence. subst ca cb. clear Hba Hbb.
  assert (Hgen : forall s w c' t, cinv E (s_coll s) -> reaches E s w -> apply_flp_results (s_coll w) keep = Ret c' -> reaches E (set_coll w c') t ->
     forall i, i < length (c_reports (s_coll s)) -> accepted t i -> nth_error keep i = Some true).
  { clear. intros s w c' t Hc Rw Hap Rt i Hi [r Hr]. destruct (reaches_reps _ _ _ Hc Rw) as [Hle Hcw]. pose proof (reps_le_length _ _ Hle) as Hlen.
    rewrite apply_flp_results_spec in Hap. destruct (length keep =? length (c_reports (s_coll w))) eqn:Hkl; [|discriminate]. apply Nat.eqb_eq in Hkl. injection Hap as <-.
    destruct (nth_error (c_reports (s_coll w)) i) as [[h x]|] eqn:Hw; [|apply nth_error_None in Hw; lia].
    destruct (nth_error keep i) as [k|] eqn:Hk; [|apply nth_error_None in Hk; lia].
    assert (Hcm : cinv E (set_reports (s_coll w) (mark keep (c_reports (s_coll w))))).
    { destruct Hcw as [(n1 & L1 & Hf1) (n2 & L2 & Hf2)]. assert (Hll : length (mark keep (c_reports (s_coll w))) = length (c_reports (s_coll w))) by (unfold mark; rewrite map_length, combine_length; lia).
      split; [exists n1|exists n2]; cbn; (split; [rewrite Hll; assumption|]); eapply front_ok_mono; try apply reps_le_mark; eassumption. }
    destruct (reaches_reps E (set_coll w (set_reports (s_coll w) (mark keep (c_reports (s_coll w))))) t Hcm Rt) as [Hle2 _]. cbn in Hle2.
    destruct (Hle2 i (h && k) x) as (h' & Hn & Hh). { rewrite mark_nth by exact Hkl. rewrite Hw, Hk. reflexivity. }
    rewrite Hr in Hn. injection Hn as <- <-. specialize (Hh eq_refl). apply andb_true_iff in Hh. destruct Hh as [_ ->]. reflexivity. }
  intros i Hi0 [Hacc|Hacc].
  - eapply (Hgen s0 w0 c0' t0); eauto; repeat (eapply reaches_trans; [eassumption|]); try apply reaches_refl; assumption.
  - assert (Hkl1 : length keep = length (c_reports (s_coll w1))).
    { rewrite apply_flp_results_spec in Hc1. destruct (length keep =? length (c_reports (s_coll w1))) eqn:Hk; [apply Nat.eqb_eq in Hk; exact Hk|discriminate]. }
    assert (Hkl0 : length keep = length (c_reports (s_coll w0))).
    { rewrite apply_flp_results_spec in Hc0. destruct (length keep =? length (c_reports (s_coll w0))) eqn:Hk; [apply Nat.eqb_eq in Hk; exact Hk|discriminate]. }
    assert (Hle0 : length (c_reports (s_coll s0)) <= length keep).
    { rewrite Hkl0. apply reps_le_length. eapply reaches_reps; [exact C0|eapply reaches_trans; eassumption]. }
    assert (Hgo : i < length (c_reports (s_coll w1))) by lia.
    eapply (Hgen w1 w1 c1' t1); eauto.
    + eapply reaches_reps; [exact C1|eapply reaches_trans; eassumption].
    + apply reaches_refl.
    + repeat (eapply reaches_trans; [eassumption|]); try apply reaches_refl; assumption.
Qed.
Lemma accepted_verified_reachable fuel E cfg id0 b0 h0 qs0 id1 b1 h1 qs1 s0 s1 n t0 t1 res b :
  s0 = fst (handle_all E (server_start id0 b0 h0) qs0) -> s1 = fst (handle_all E (server_start id1 b1 h1) qs1) ->
  cfg_bits cfg = Some b -> 2 <= b -> run_whh fuel E cfg s0 s1 n = Ret (t0, t1, res) ->
  exists u0 u1 keep w0 w1, call2_done E s0 s1 QTreeInit QTreeInit = Ret (u0, u1) /\ flp_loop fuel E cfg u0 u1 n 0 [] = Ret (w0, w1, keep) /\
    forall i, i < length (c_reports (s_coll s0)) -> (accepted t0 i \/ accepted t1 i) -> nth_error keep i = Some true.
Proof. intros -> -> Hb Hb2. apply (accepted_verified fuel E cfg _ _ n t0 t1 res b Hb Hb2); apply handle_all_cinv, cinv_new. Qed.
