(** Proofs for C81. *)
From Verif Require Import Base BaseFacts Field Util UtilFacts Env Prg PrgFacts PrgSpecFacts2 Vidpf SpecVidpf SpecTree VidpfFacts VidpfEvalFacts VidpfTreeFacts VidpfTreeFacts3 VidpfTreeFacts4
  Merkle Collect Server Driver SpecCollect SpecServer SpecDriver SpecCheck SpecLevel SpecWhh CollectFacts CollectInv ServerFacts DriverFacts DriverPropFacts RefuteFacts MerkleFacts LevelFacts PairFacts WhhFacts WhhFacts2 FlpFacts WhhFacts3
  PrimeFacts Histogram HistFacts HistRun SpecHist SpecCensor.
From Coq Require Import Lia.

Lemma lied_length lie a v : length (lied lie a v) = length v.
Proof. unfold lied. rewrite map_length, combine_length, seq_length. lia. Qed.
Lemma lied_app lie : forall v a w, lied lie a (v ++ w) = lied lie a v ++ lied lie (a + length v) w.
Proof.
  unfold lied. induction v as [|x v IH]; intros a w; cbn [app length seq combine map]; [rewrite Nat.add_0_r; reflexivity|].
  f_equal. rewrite IH. replace (S a + length v) with (a + S (length v)) by lia. reflexivity.
Qed.
Lemma lied_nth lie v a i : nth_error (lied lie a v) i = option_map (lie (a + i)) (nth_error v i).
Proof.
  unfold lied. revert a i. induction v as [|x v IH]; intros a [|i]; cbn [length seq combine map nth_error option_map]; try reflexivity.
  - cbn [fst snd]. rewrite Nat.add_0_r. reflexivity.
  - rewrite IH. replace (S a + i) with (a + S i) by lia. reflexivity.
Qed.

Section Loop.
Variables (who : bool) (lie : nat -> list fld -> list fld).
Definition left_ a v := if who then lied lie a v else v.
Definition right_ a v := if who then v else lied lie a v.

Lemma lying_loop E cfg s0 s1 n : 0 < cfg_query_batch cfg -> s_poison s0 = false -> s_poison s1 = false -> same_root_size (s_coll s0) (s_coll s1) ->
  forall fuel start keep v0 v1 ks, n - start <= fuel -> start < n -> root_of (s_coll s0) n -> root_of (s_coll s1) n ->
  run_flp_queries E (s_coll s0) start n = Ret v0 -> run_flp_queries E (s_coll s1) start n = Ret v1 ->
  mapM (flp_decide_pair E (cfg_hist cfg)) (combine (left_ start v0) (right_ start v1)) = Ret ks ->
  flp_loop_lying who lie fuel E cfg s0 s1 n start keep = Ret (s0, s1, keep ++ ks).
Proof.
  intros Hb H0 H1 Hsz. induction fuel as [|f IH]; intros start keep v0 v1 ks Hf Hlt R0 R1 Hv0 Hv1 Hks; [lia|].
  cbn [flp_loop_lying]. rewrite (proj2 (Nat.ltb_lt _ _) Hlt). set (stop := Nat.min n (start + cfg_query_batch cfg)).
  assert (Hstop : start < stop <= n) by (unfold stop; lia).
  apply (rfq_append _ _ _ stop) in Hv0; [|lia|lia]. apply (rfq_append _ _ _ stop) in Hv1; [|lia|lia].
  destruct Hv0 as (a0 & b0 & Ha0 & Hb0 & ->), Hv1 as (a1 & b1 & Ha1 & Hb1 & ->).
  assert (Hlen : forall s a, root_of (s_coll s) n -> run_flp_queries E (s_coll s) start stop = Ret a -> length a = stop - start).
  { intros s a (nd & Hn & Hl) Ha. apply rfq_length in Ha; [|lia]. destruct Ha as (x & Hx & ->). rewrite Hn in Hx. injection Hx as <-. lia. }
  pose proof (Hlen _ _ R0 Ha0) as Hl0. pose proof (Hlen _ _ R1 Ha1) as Hl1. clear Hlen.
  assert (Hsplit : combine (left_ start (a0 ++ b0)) (right_ start (a1 ++ b1)) = combine (left_ start a0) (right_ start a1) ++ combine (left_ stop b0) (right_ stop b1)).
  { unfold left_, right_. destruct who; rewrite lied_app, ?Hl0, ?Hl1; replace (start + (stop - start)) with stop by lia; apply combine_app; rewrite lied_length; lia. }
  rewrite Hsplit, mapM_app in Hks. bret Hks as k1 Hk1. bret Hks as k2 Hk2. injection Hks as <-.
  rewrite (proj2 (call2_ret E s0 s1 (QRunFlpQueries start stop) (QRunFlpQueries start stop) s0 s1 (AFields a0) (AFields a1))).
  2:{ split; apply flp_request; try assumption; try lia; eauto. }
  cbn [bind]. fold (left_ start a0) (right_ start a1).
  rewrite debug_assert_true by (apply Nat.eqb_eq; unfold left_, right_; destruct who; rewrite lied_length; lia). cbn [bind]. rewrite Hk1. cbn [bind].
  destruct (le_lt_dec n (start + cfg_query_batch cfg)) as [Hend|Hmore].
  - assert (Hsn : stop = n) by (unfold stop; lia). rewrite Hsn in *.
    pose proof (rfq_length _ _ _ _ _ (Nat.le_refl n) Hb0) as (x0 & _ & Hx0).
    assert (b0 = []) by (destruct b0; [reflexivity|cbn in Hx0; lia]). subst b0.
    assert (Hnil : combine (left_ n []) (right_ n b1) = []) by (unfold left_; destruct who; reflexivity). rewrite Hnil in Hk2. cbn [mapM] in Hk2. injection Hk2 as <-.
    rewrite app_nil_r. destruct f; cbn [flp_loop_lying]; rewrite (proj2 (Nat.ltb_ge _ _) Hend); reflexivity.
  - assert (Hsn : stop = start + cfg_query_batch cfg) by (unfold stop; lia). rewrite Hsn in *.
    rewrite app_assoc. apply (IH _ _ b0 b1); try assumption; lia.
Qed.
End Loop.

Lemma forall2_nth {A B} (R : A -> B -> Prop) l l' : length l = length l' -> (forall i a b, nth_error l i = Some a -> nth_error l' i = Some b -> R a b) -> Forall2 R l l'.
Proof.
  revert l'. induction l as [|x l IH]; intros [|y l'] Hl H; try discriminate Hl; constructor; [exact (H 0 x y eq_refl eq_refl)|].
  apply IH; [cbn in Hl; lia|]. intros i a b Ha Hb. exact (H (S i) a b Ha Hb).
Qed.

Section Run.
Variable E : env.
Hypothesis Hok : env_ok E.
Variables (who : bool) (lie : nat -> list fld -> list fld) (len bits : nat) (L : list entry) (vk : bytes).
Hypothesis Hgood : Forall (good_entry E len bits) L.
Hypothesis Hn : (Z.of_nat (length L) < 2 ^ 64)%Z.
Variable cfg : config.
Hypothesis Hcfg : cfg_hist cfg = len.
Hypothesis Hbatch : 0 < cfg_query_batch cfg.

Definition verdicts : Prop := forall i e, nth_error L i = Some e -> lied_verdict E len vk who (lie i) (e_r0 e) (e_r1 e) (e_ok e).

(** the verifier shares of all reports *)
Lemma all_queries c (first : bool) (r : entry -> report_share) (v : entry -> list fld) : at_root E c -> root_of c (length L) -> c_len c = len -> c_vk c = vk -> (c_sid c =? 0)%Z = first ->
  c_reports c = map (fun e => (true, r e)) L -> (forall p, length p = 1 -> defined_at E len (c_reports c) p) ->
  (forall e, In e L -> verifier_share E first len vk (r e) = Some (v e)) -> 0 < length L ->
  run_flp_queries E c 0 (length L) = Ret (map v L).
Proof.
  clear Hok Hgood Hn Hcfg Hbatch. intros A R HL Hv Hs Hr Hd Hq Hl. apply (rfq_singles E c (length L) R (length L) 0 (map v L) eq_refl).
  split; [apply map_length|]. split; [left; exact Hl|]. intros i x Hx. cbn [Nat.add].
  rewrite nth_error_map' in Hx. destruct (nth_error L i) as [e|] eqn:He; [|discriminate Hx].
  assert (Hxe : v e = x) by (cbn in Hx; congruence). subst x.
  rewrite (rfq_one E c i true (r e) A) by (try (rewrite HL; apply Hd; reflexivity); rewrite Hr, nth_error_map', He; reflexivity).
  rewrite HL, Hv, Hs, (Hq e (nth_error_In _ _ He)). reflexivity.
Qed.

Lemma lying_run fuel s0 s1 : side E len bits true (allowed L e_r0) [[]] s0 -> side E len bits false (allowed L e_r1) [[]] s1 ->
  c_vk (s_coll s0) = vk -> c_vk (s_coll s1) = vk -> length L <= fuel -> 1 <= bits -> verdicts ->
  exists t0 t1, (let! '(s0, s1, keep) := flp_loop_lying who lie fuel E cfg s0 s1 (length L) 0 [] in call2_done E s0 s1 (QApplyFlpResults keep) (QApplyFlpResults keep)) = Ret (t0, t1) /\
    pair_inv E len bits L [[]] t0 t1.
Proof.
  intros S0 S1 V0 V1 Hf Hb1 Hv.
  assert (Hd : forall p, length p <= 1 -> defined_at E len (allowed L e_r0) p /\ defined_at E len (allowed L e_r1) p) by (intros p Hp; apply (allowed_defined E Hok len bits L Hgood); lia).
  destruct (side_root E len bits L Hgood _ _ _ S0 (proj1 (Hd [] ltac:(cbn; lia)))) as [A0 R0]. destruct (side_root E len bits L Hgood _ _ _ S1 (proj2 (Hd [] ltac:(cbn; lia)))) as [A1 R1].
  unfold allowed in R0, R1. rewrite map_length in R0, R1.
  destruct (handle_flags E len bits L _ _ _ S0) as (t0 & H0 & T0). destruct (handle_flags E len bits L _ _ _ S1) as (t1 & H1 & T1).
  exists t0, t1. split; [|split; assumption].
  assert (HL : flp_loop_lying who lie fuel E cfg s0 s1 (length L) 0 [] = Ret (s0, s1, map e_ok L)).
  { destruct (Nat.eq_dec (length L) 0) as [Hz|Hz].
    { destruct L as [|x l]; [|discriminate Hz]. destruct fuel; reflexivity. }
    pose (q0 := fun e => match verifier_share E true len vk (e_r0 e) with Some v => v | None => [] end).
    pose (q1 := fun e => match verifier_share E false len vk (e_r1 e) with Some v => v | None => [] end).
    assert (Hq : forall i e, nth_error L i = Some e -> verifier_share E true len vk (e_r0 e) = Some (q0 e) /\ verifier_share E false len vk (e_r1 e) = Some (q1 e) /\
       flp_decide E len (if who then add_shares (lie i (q0 e)) (q1 e) else add_shares (q0 e) (lie i (q1 e))) = Some (e_ok e)).
    { intros i e He. destruct (Hv i e He) as (v0 & v1 & A & B & C). unfold q0, q1. rewrite A, B. auto. }
    assert (Hin : forall e, In e L -> exists i, nth_error L i = Some e) by (intros e He; apply In_nth_error; exact He).
    destruct S0 as (P0 & I0 & L0 & D0 & Q0 & F0). destruct S1 as (P1 & I1 & L1 & D1 & Q1 & F1).
    change (map e_ok L) with ([] ++ map e_ok L).
    apply (lying_loop who lie E cfg s0 s1 (length L) Hbatch P0 P1 (root_of_same _ _ _ R0 R1) fuel 0 [] (map q0 L) (map q1 L)); try assumption; try lia.
    - apply (all_queries (s_coll s0) true e_r0 q0); try assumption; try lia.
      + intros p Hp. rewrite Q0. apply Hd. lia.
      + intros e He. destruct (Hin e He) as (i & Hi). apply (Hq i e Hi).
    - apply (all_queries (s_coll s1) false e_r1 q1); try assumption; try lia.
      + intros p Hp. rewrite Q1. apply Hd. lia.
      + intros e He. destruct (Hin e He) as (i & Hi). apply (Hq i e Hi).
    - rewrite Hcfg. apply mapM_intro. apply forall2_nth.
      { unfold left_, right_. rewrite combine_length, map_length. destruct who; rewrite lied_length, !map_length; lia. }
      intros i [x y] b Hxy Hbk. rewrite nth_error_combine in Hxy. rewrite nth_error_map' in Hbk.
      destruct (nth_error L i) as [e|] eqn:He; [|discriminate Hbk]. cbn [option_map] in Hbk. assert (Hbe : e_ok e = b) by congruence. subst b. clear Hbk.
      destruct (Hq i e He) as (_ & _ & Hdec). unfold flp_decide_pair. cbn [fst snd].
      assert (Hxy' : (x, y) = if who then (lie i (q0 e), q1 e) else (q0 e, lie i (q1 e))).
      { unfold left_, right_ in Hxy. destruct who; rewrite lied_nth, !nth_error_map', He in Hxy; cbn [option_map Nat.add] in Hxy; congruence. }
      rewrite zip_add_combine. fold (add_shares x y).
      destruct who; assert (Hx := f_equal fst Hxy'); assert (Hy := f_equal snd Hxy'); cbn [fst snd] in Hx, Hy; rewrite Hx, Hy, Hdec; reflexivity. }
  rewrite HL. cbn [bind]. apply call2_done_ret. eauto.
Qed.

Lemma levels_same fuel n : forall k s0 s1, levels_lying who lie fuel E cfg s0 s1 n false k = levels_loop fuel E cfg s0 s1 n false k.
Proof.
  clear. induction k as [|k IH]; intros s0 s1; [reflexivity|]. cbn [levels_lying levels_loop bind].
  destruct (run_level fuel E cfg s0 s1 n) as [[t0 t1]|]; [|reflexivity]. cbn [bind]. apply IH.
Qed.

Theorem lying_exact fuel s0 s1 : uploaded true len bits vk (map e_r0 L) s0 -> uploaded false len bits vk (map e_r1 L) s1 ->
  cfg_bits cfg = Some bits -> 2 <= bits -> length L <= fuel -> existsb e_ok L = true -> verdicts ->
  (forall l, 1 <= l -> l + 1 < bits -> exists p, length p = l /\ heavy (threshold cfg) L p = true) ->
  exists t0 t1, run_lying who lie fuel E cfg s0 s1 (length L) = Ret (t0, t1, map (exact_result L len) (filter (heavy (threshold cfg) L) (all_paths bits))).
Proof.
  intros U0 U1 Hcb Hb Hf Hex Hv Hlv. destruct (allowed_defined E Hok len bits L Hgood [] ltac:(cbn; lia)) as [D0 D1].
  destruct (handle_init E len bits L vk _ _ _ U0 D0) as (i0 & HI0 & S0 & V0). destruct (handle_init E len bits L vk _ _ _ U1 D1) as (i1 & HI1 & S1 & V1).
  unfold run_lying. rewrite (proj2 (call2_done_ret _ _ _ _ _ i0 i1)) by eauto. cbn [bind]. rewrite Hcb. cbn [unwrap bind].
  rewrite (proj2 (Nat.eqb_neq bits 0)) by lia.
  replace (bits - 1) with (S (bits - 2)) by lia. cbn [levels_lying].
  destruct (lying_run fuel i0 i1 S0 S1 V0 V1 Hf ltac:(lia) Hv) as (t0 & t1 & Ht & Hi). rewrite Ht. cbn [bind].
  assert (Hf1 : 1 <= fuel) by (destruct L; [discriminate Hex|cbn [length] in Hf; lia]).
  destruct (level_step E Hok len bits L Hgood Hn fuel cfg (length L) [[]] 0 t0 t1 Hi) as (u0 & u1 & Hu & Hiu); try assumption; try lia.
  { discriminate. } { intros p [<-|[]]. reflexivity. }
  rewrite Hu. cbn [bind]. change [[]] with (frontier_at (threshold cfg) L 0) in Hiu. rewrite frontier_next in Hiu. rewrite levels_same.
  destruct (levels_run E Hok len bits L Hgood Hn cfg Hcfg fuel (length L) Hf1 Hex (bits - 2) 1 u0 u1 Hiu) as (w0 & w1 & Hw & Hiw).
  { lia. } { intros l Hl. apply frontier_nonempty. apply Hlv; lia. }
  rewrite Hw. cbn [bind].
  destruct (last_step E Hok len bits L Hgood Hn cfg Hcfg fuel (length L) _ w0 w1 Hiw Hbatch Hf) as (x0 & x1 & Hx).
  { intros p Hp. apply frontier_length in Hp. lia. }
  exists x0, x1. rewrite Hx, frontier_next. replace (S (1 + (bits - 2))) with bits by lia. destruct bits; [lia|reflexivity].
Qed.
End Run.

(** an aggregator that changes nothing *)
Lemma lied_same start v : lied (fun _ v => v) start v = v.
Proof.
  unfold lied. rewrite (map_ext _ snd) by (intros [i x]; reflexivity). revert start. induction v as [|x v IH]; intros start; [reflexivity|].
  cbn [length seq combine map snd]. rewrite IH. reflexivity.
Qed.
Lemma lying_same_loop who E cfg n : forall fuel s0 s1 start keep, flp_loop_lying who (fun _ v => v) fuel E cfg s0 s1 n start keep = flp_loop fuel E cfg s0 s1 n start keep.
Proof.
  induction fuel as [|fuel IH]; intros s0 s1 start keep; cbn [flp_loop_lying flp_loop]; destruct (start <? n); try reflexivity.
  destruct (call2 E s0 s1 _ _) as [[[t0 t1] [r0 r1]]|]; [|reflexivity]. cbn [bind]. destruct r0; try reflexivity. destruct r1; try reflexivity.
  rewrite !lied_same. destruct who.
  all: destruct (debug_assert _ _); [|reflexivity]; cbn [bind]; destruct (mapM _ _); [|reflexivity]; cbn [bind]; apply IH.
Qed.
Lemma lying_same who fuel E cfg s0 s1 n : run_lying who (fun _ v => v) fuel E cfg s0 s1 n = run_whh fuel E cfg s0 s1 n.
Proof.
  unfold run_lying, run_whh. destruct (call2_done E s0 s1 _ _) as [[t0 t1]|]; [|reflexivity]. cbn [bind]. destruct (unwrap (cfg_bits cfg)) as [bits|]; [|reflexivity]. cbn [bind].
  destruct (bits =? 0); [reflexivity|]. f_equal. destruct (bits - 1) as [|k]; [reflexivity|]. cbn [levels_lying levels_loop]. unfold drv_run_flp_queries. rewrite lying_same_loop.
  destruct (let! '(a, b, keep) := flp_loop fuel E cfg t0 t1 n 0 [] in call2_done E a b (QApplyFlpResults keep) (QApplyFlpResults keep)) as [[u0 u1]|]; [|reflexivity]. cbn [bind].
  destruct (run_level fuel E cfg u0 u1 n) as [[w0 w1]|]; [|reflexivity]. cbn [bind]. apply levels_same.
Qed.

(** *** dropping reports *)
Definition marked_from (D : nat -> bool) (a : nat) (L : list entry) : list entry :=
  map (fun ie => {| e_ok := e_ok (snd ie) && negb (D (fst ie)); e_r0 := e_r0 (snd ie); e_r1 := e_r1 (snd ie); e_alpha := e_alpha (snd ie); e_beta := e_beta (snd ie) |}) (combine (seq a (length L)) L).
Definition spared_from (D : nat -> bool) (a : nat) (L : list entry) : list entry := map snd (filter (fun ie => negb (D (fst ie))) (combine (seq a (length L)) L)).
Lemma marked_supporters D p : forall L a, supporters (marked_from D a L) p = supporters (spared_from D a L) p.
Proof.
  induction L as [|e L IH]; intros a; [reflexivity|]. unfold marked_from, spared_from. cbn [length seq combine map filter fst snd].
  fold (marked_from D (S a) L). destruct (D a); cbn [negb map snd].
  - fold (spared_from D (S a) L). rewrite <- IH. unfold supporters. cbn [filter e_ok e_alpha]. rewrite andb_false_r. reflexivity.
  - fold (spared_from D (S a) L). unfold supporters. cbn [filter e_ok e_alpha]. rewrite andb_true_r.
    fold (supporters (marked_from D (S a) L) p) (supporters (spared_from D (S a) L) p). rewrite IH. destruct e as [ok r0 r1 al be]. reflexivity.
Qed.
Lemma marked_exists D : forall L a, existsb e_ok (marked_from D a L) = existsb e_ok (spared_from D a L).
Proof.
  induction L as [|e L IH]; intros a; [reflexivity|]. unfold marked_from, spared_from. cbn [length seq combine map filter fst snd].
  fold (marked_from D (S a) L). destruct (D a); cbn [negb map snd]; fold (spared_from D (S a) L); cbn [existsb e_ok].
  - rewrite andb_false_r. apply IH.
  - rewrite andb_true_r, IH. reflexivity.
Qed.
Lemma marked_length D L a : length (marked_from D a L) = length L.
Proof. unfold marked_from. rewrite map_length, combine_length, seq_length. lia. Qed.
Lemma marked_shares D (r : entry -> report_share) : (forall b x, r {| e_ok := b; e_r0 := e_r0 x; e_r1 := e_r1 x; e_alpha := e_alpha x; e_beta := e_beta x |} = r x) ->
  forall L a, map r (marked_from D a L) = map r L.
Proof.
  intros Hr. induction L as [|e L IH]; intros a; [reflexivity|]. unfold marked_from. cbn [length seq combine map fst snd]. rewrite Hr. f_equal. apply (IH (S a)).
Qed.
Lemma marked_nth D L a i x : nth_error (marked_from D a L) i = Some x -> exists e, nth_error L i = Some e /\
  x = {| e_ok := e_ok e && negb (D (a + i)); e_r0 := e_r0 e; e_r1 := e_r1 e; e_alpha := e_alpha e; e_beta := e_beta e |}.
Proof.
  revert a i. induction L as [|e L IH]; intros a [|i] H; try discriminate H.
  - exists e. split; [reflexivity|]. rewrite Nat.add_0_r. unfold marked_from in H. cbn [length seq combine map nth_error fst snd] in H. congruence.
  - destruct (IH (S a) i H) as (e' & He & ->). exists e'. split; [exact He|]. replace (a + S i) with (S a + i) by lia. reflexivity.
Qed.
Lemma spared_in D L x : In x (spared D L) -> In x L.
Proof.
  intros H. apply in_map_iff in H. destruct H as ((i & y) & <- & H). apply filter_In in H. destruct H as [H _]. apply in_combine_r in H. exact H.
Qed.
Lemma same_results L M len thr l : (forall p, supporters L p = supporters M p) ->
  map (exact_result L len) (filter (heavy thr L) l) = map (exact_result M len) (filter (heavy thr M) l).
Proof.
  intros H. assert (Hh : forall p, heavy thr L p = heavy thr M p) by (intros p; unfold heavy, count; rewrite H; reflexivity).
  rewrite (filter_ext _ _ Hh). apply map_ext. intros p. unfold exact_result, count, weight. rewrite H. reflexivity.
Qed.

(** *** the verdict with one added *)
Lemma plus_one_left v0 v1 : add_shares (plus_one v0) v1 = plus_one (add_shares v0 v1).
Proof. destruct v0 as [|x v0]; [reflexivity|]. destruct v1 as [|y v1]; [reflexivity|]. unfold add_shares. cbn [plus_one combine map fst snd]. f_equal. ring. Qed.
Lemma plus_one_right v0 v1 : add_shares v0 (plus_one v1) = plus_one (add_shares v0 v1).
Proof. destruct v0 as [|x v0]; [reflexivity|]. destruct v1 as [|y v1]; [reflexivity|]. unfold add_shares. cbn [plus_one combine map fst snd]. f_equal. ring. Qed.
Lemma decide_first v : hist_decide chunk v = Some true -> nth 0 v fzero = fzero.
Proof.
  unfold hist_decide. destruct (_ =? _); [|discriminate]. intros H. assert (Hb : feqb (nth 0 v fzero) fzero = true) by (destruct (feqb _ fzero); [reflexivity|discriminate H]).
  apply feqb_eq. exact Hb.
Qed.
Lemma decide_length v b : hist_decide chunk v = Some b -> length v = verifier_len chunk.
Proof. unfold hist_decide. destruct (_ =? _) eqn:H; [|discriminate]. intros _. apply Nat.eqb_eq. exact H. Qed.
Lemma one_not_zero : fadd fzero (of_Z 1) <> fzero.
Proof. intros H. apply (f_equal fval) in H. vm_compute in H. discriminate H. Qed.
Lemma plus_one_rejected v : hist_decide chunk v = Some true -> hist_decide chunk (plus_one v) = Some false.
Proof.
  intros H. pose proof (decide_first v H) as H0. pose proof (decide_length v true H) as Hl. destruct v as [|x v]; [discriminate Hl|]. cbn [nth] in H0. subst x.
  unfold hist_decide. cbn [plus_one]. cbn [length] in Hl |- *. rewrite Hl, Nat.eqb_refl. cbn [nth].
  destruct (feqb (fadd fzero (of_Z 1)) fzero) eqn:Hf; [|reflexivity]. apply feqb_eq in Hf. destruct (one_not_zero Hf).
Qed.

Section Hist.
Variable E : env.
Hypothesis Hok : env_ok E.
Let H := with_hist E.

Theorem censored who D len bits L vk fuel cfg s0 s1 : Forall (good_entry H len bits) L -> (Z.of_nat (length L) < 2 ^ 64)%Z ->
  cfg_hist cfg = len -> cfg_bits cfg = Some bits -> 0 < cfg_query_batch cfg -> 2 <= bits -> length L <= fuel ->
  uploaded true len bits vk (map e_r0 L) s0 -> uploaded false len bits vk (map e_r1 L) s1 ->
  Forall (fun e => report_verdict H len vk (e_r0 e) (e_r1 e) (e_ok e)) L ->
  (forall i e, nth_error L i = Some e -> D i = true -> e_ok e = true) -> existsb e_ok (spared D L) = true ->
  (forall l, 1 <= l -> l + 1 < bits -> exists p, length p = l /\ heavy (threshold cfg) (spared D L) p = true) ->
  let rs := map (exact_result (spared D L) len) (filter (heavy (threshold cfg) (spared D L)) (all_paths bits)) in
  (exists t0 t1, run_lying who (censor D) fuel H cfg s0 s1 (length L) = Ret (t0, t1, rs)) /\
  forall u0 u1, uploaded true len bits vk (map e_r0 (spared D L)) u0 -> uploaded false len bits vk (map e_r1 (spared D L)) u1 ->
    exists t0 t1, run_whh fuel H cfg u0 u1 (length (spared D L)) = Ret (t0, t1, rs).
Proof.
  intros Hg Hn Hc Hcb Hq Hb Hf U0 U1 Hv HD Hex Hlv rs.
  assert (Hsup : forall p, supporters (marked_from D 0 L) p = supporters (spared D L) p) by (intros p; apply (marked_supporters D p L 0)).
  assert (Hheavy : forall p, heavy (threshold cfg) (marked_from D 0 L) p = heavy (threshold cfg) (spared D L) p) by (intros p; unfold heavy, count; rewrite Hsup; reflexivity).
  assert (Hsl : length (spared D L) <= length L).
  { unfold spared. rewrite map_length. pose proof (filter_le (fun ie : nat * entry => negb (D (fst ie))) (fun _ => true) (combine (seq 0 (length L)) L) ltac:(auto)) as Hle.
    assert (Hall : forall (l : list (nat * entry)), filter (fun _ => true) l = l) by (induction l as [|y l IHl]; [reflexivity|cbn [filter]; rewrite IHl; reflexivity]).
    rewrite Hall, combine_length, seq_length in Hle. lia. }
  split.
  - rewrite <- (marked_length D L 0).
    destruct (lying_exact H (with_hist_ok E Hok) who (censor D) len bits (marked_from D 0 L) vk) with (cfg := cfg) (fuel := fuel) (s0 := s0) (s1 := s1) as (t0 & t1 & Ht); try assumption.
    + apply Forall_forall. intros x Hx. apply In_nth_error in Hx. destruct Hx as (i & Hx). apply marked_nth in Hx. destruct Hx as (e & He & ->).
      rewrite Forall_forall in Hg. destruct (Hg e (nth_error_In _ _ He)) as (W0 & W1 & Hh). split; [exact W0|]. split; [exact W1|].
      cbn [e_ok e_r0 e_r1 e_alpha e_beta]. intros Ha. apply andb_prop in Ha. apply Hh. apply Ha.
    + rewrite marked_length. exact Hn.
    + rewrite marked_shares by reflexivity. exact U0.
    + rewrite marked_shares by reflexivity. exact U1.
    + rewrite marked_length. exact Hf.
    + rewrite marked_exists. exact Hex.
    + intros i x Hx. apply marked_nth in Hx. destruct Hx as (e & He & ->). cbn [e_ok e_r0 e_r1 Nat.add].
      rewrite Forall_forall in Hv. destruct (Hv e (nth_error_In _ _ He)) as (v0 & v1 & A & B & C). exists v0, v1. split; [exact A|]. split; [exact B|].
      unfold censor. destruct (D i) eqn:Hd.
      * rewrite (HD i e He Hd) in *. cbn [andb negb]. rewrite plus_one_left, plus_one_right. destruct who; apply plus_one_rejected; exact C.
      * cbn [negb]. rewrite andb_true_r. destruct who; exact C.
    + intros l H1 H2. destruct (Hlv l H1 H2) as (p & Hp & Hh). exists p. split; [exact Hp|]. rewrite Hheavy. exact Hh.
    + exists t0, t1. rewrite Ht. unfold rs. rewrite (same_results _ _ len (threshold cfg) (all_paths bits) Hsup). reflexivity.
  - intros u0 u1 W0 W1.
    apply (run_whh_ok H (with_hist_ok E Hok) len bits (spared D L) vk) with (cfg := cfg); try assumption; try lia.
    + apply Forall_forall. intros x Hx. rewrite Forall_forall in Hg. apply Hg. apply (spared_in D). exact Hx.
    + intros _. split; [exact Hex|]. apply Forall_forall. intros x Hx. rewrite Forall_forall in Hv. apply Hv. apply (spared_in D). exact Hx.
Qed.

Lemma must_guess len u v v' : flp_decide H len (add_shares u v) = Some true -> flp_decide H len (add_shares u v') = Some true -> nth 0 v fzero = nth 0 v' fzero.
Proof.
  clear. intros A B. change (flp_decide H len) with (hist_decide chunk) in A, B.
  pose proof (decide_length _ _ A) as LA. pose proof (decide_length _ _ B) as LB. apply decide_first in A, B.
  destruct u as [|x u]; [discriminate LA|]. destruct v as [|y v]; [discriminate LA|]. destruct v' as [|z v']; [discriminate LB|].
  unfold add_shares in A, B. cbn [combine map fst snd nth] in A, B |- *.
  transitivity (fadd (fadd x y) (fneg x)); [ring|]. rewrite A, <- B. ring.
Qed.
End Hist.
