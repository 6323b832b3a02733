(** Proofs about attribute-based and plain metrics (Server.v, Driver.v). *)
From Verif Require Import Base BaseFacts Field Util UtilFacts Env Prg Vidpf VidpfFacts Merkle Collect Server Driver
  SpecCollect SpecServer SpecDriver SpecMetrics CollectFacts CollectInv ServerFacts DriverFacts.

Lemma set_abm_id c : set_abm c (c_abm c) = c.  Proof. destruct c; reflexivity. Qed.
Lemma set_pm_id c : set_pm c (c_pm c) = c.  Proof. destruct c; reflexivity. Qed.

(** *** the aggregation *)
Lemma add_all_length agg : forall vals, length (add_all agg vals) = length agg.
Proof. induction agg as [|x agg IH]; intros [|v vals]; cbn; [reflexivity..|]. rewrite IH. reflexivity. Qed.
Lemma add_all_nth agg : forall vals a, a < length agg -> nth a (add_all agg vals) [] = vec_add (nth a agg []) (nth a vals []).
Proof.
  induction agg as [|x agg IH]; intros [|v vals] a Ha; cbn [length] in Ha; try lia.
  - cbn [add_all]. destruct a; cbn [nth]; destruct x; try reflexivity; destruct (nth a agg []); reflexivity.
  - destruct a; cbn [add_all nth]; [reflexivity|apply IH; lia].
Qed.
Lemma vec_add_nth_def a b j : j < length a -> nth j (vec_add a b) (of_Z 0) = fadd (nth j a (of_Z 0)) (nth j b (of_Z 0)).
Proof.
  intros Hj. revert b j Hj. induction a as [|x a IH]; intros [|y b] [|j] Hj; cbn [length] in Hj; try lia; cbn [vec_add nth]; try (change (of_Z 0) with fzero; ring).
  apply IH. lia.
Qed.

Lemma table_fold {V} (f : V -> list (list fld)) (m : list V) len n : forall agg done,
  is_table len n done agg -> is_table len n (map f m ++ done) (fold_left (fun agg kv => add_all agg (f kv)) m agg).
Proof.
  induction m as [|x m IH]; intros agg done H; cbn [fold_left map app]; [exact H|].
  assert (Hp : is_table len n (map f m ++ f x :: done) (fold_left (fun agg kv => add_all agg (f kv)) m (add_all agg (f x)))).
  { apply IH. destruct H as [Hl H]. split; [rewrite add_all_length; exact Hl|]. intros a Ha. destruct (H a Ha) as [H1 H2].
    rewrite add_all_nth by lia. split; [rewrite vec_add_length; exact H1|]. intros j Hj. rewrite vec_add_nth_def by lia.
    rewrite H2 by exact Hj. unfold total. cbn [map fsum]. unfold comp at 2. ring. }
  destruct Hp as [Hl Hp]. split; [exact Hl|]. intros a Ha. destruct (Hp a Ha) as [H1 H2]. split; [exact H1|]. intros j Hj. rewrite H2 by exact Hj.
  unfold total. cbn [map fsum app]. rewrite !map_app. cbn [map]. generalize (map (comp a j) (map f m)). intros q. induction q as [|y q IHq]; cbn [app fsum]; [reflexivity|]. rewrite IHq. ring.
Qed.
Lemma zeros_table len n : is_table len n [] (repeat (zeros len) n).
Proof.
  split; [apply repeat_length|]. intros a Ha. rewrite (nth_indep _ [] (zeros len)) by (rewrite repeat_length; exact Ha). rewrite nth_repeat.
  split; [apply repeat_length|]. intros j Hj. unfold zeros. change (of_N 0) with (of_Z 0). rewrite nth_repeat. reflexivity.
Qed.
Lemma table_of {V} (f : V -> list (list fld)) (m : list V) len n : is_table len n (map f m) (fold_left (fun agg kv => add_all agg (f kv)) m (repeat (zeros len) n)).
Proof. rewrite <- (app_nil_r (map f m)). apply table_fold, zeros_table. Qed.

(** *** C33 *)
Lemma abm_reject_release E m rej : dbg E = false -> abm_reject E m rej = Ret m.
Proof. intros H. unfold abm_reject. rewrite H. induction rej; [reflexivity|exact IHrej]. Qed.
Lemma abm_release E c rej n : dbg E = false -> exists agg, abm_result E c rej n = Ret (c, agg) /\ is_table (c_len c) n (map snd (c_abm c)) agg.
Proof. intros H. unfold abm_result. rewrite abm_reject_release by exact H. cbn [bind]. rewrite set_abm_id. eexists. split; [reflexivity|]. apply table_of. Qed.

Lemma m_get_some {V} (m : list (nat * V)) i : (exists v, m_get m i = Some v) <-> In i (map fst m).
Proof.
  unfold m_get. split.
  - intros [v H]. destruct (find _ m) as [[k w]|] eqn:Hf; [|discriminate]. apply find_some in Hf. destruct Hf as [Hf Hk]. apply Nat.eqb_eq in Hk. cbn in Hk. subst. apply in_map_iff. exists (i, w). auto.
  - intros H. apply in_map_iff in H. destruct H as ([k w] & Hk & Hin). cbn in Hk. subst k.
    destruct (find (fun kv => fst kv =? i) m) as [[k v]|] eqn:Hf; [eauto|]. apply (find_none _ _ Hf) in Hin. cbn in Hin. rewrite Nat.eqb_refl in Hin. discriminate.
Qed.
Lemma m_get_none {V} (m : list (nat * V)) i : m_get m i = None <-> ~ In i (map fst m).
Proof. rewrite <- m_get_some. destruct (m_get m i); split; try discriminate; [intros H; exfalso; apply H; eauto|intros _ [v Hv]; discriminate|reflexivity]. Qed.
Lemma m_remove_keys {V} (m : list (nat * V)) i j : In j (map fst (m_remove m i)) <-> In j (map fst m) /\ j <> i.
Proof.
  unfold m_remove. rewrite !in_map_iff. split.
  - intros ([k v] & <- & Hin). apply filter_In in Hin. destruct Hin as [Hin Hk]. cbn in *. apply negb_true_iff, Nat.eqb_neq in Hk. split; [exists (k, v); auto|exact Hk].
  - intros [([k v] & <- & Hin) Hk]. exists (k, v). split; [reflexivity|]. apply filter_In. split; [exact Hin|]. cbn in *. apply negb_true_iff, Nat.eqb_neq. exact Hk.
Qed.
Lemma nodup_filter_keys {V} (f : nat * V -> bool) (m : list (nat * V)) : NoDup (map fst m) -> NoDup (map fst (filter f m)).
Proof.
  induction m as [|kv m IH]; intros H; [exact H|]. cbn [map] in H. inversion H as [|? ? Hn Hd]; subst. cbn [filter]. destruct (f kv); [|apply IH; exact Hd].
  cbn [map]. constructor; [|apply IH; exact Hd]. intros Hc. apply Hn. apply in_map_iff in Hc. destruct Hc as (x & Hx & Hin). apply filter_In in Hin. apply in_map_iff. exists x. tauto.
Qed.
Lemma nodup_insert {V} (m : list (nat * V)) k v : NoDup (map fst m) -> NoDup (map fst (m_insert m k v)).
Proof.
  intros H. unfold m_insert. cbn [map]. constructor; [|apply nodup_filter_keys; exact H]. intros Hc. apply m_remove_keys in Hc. cbn in Hc. tauto.
Qed.
Lemma without_nil {V} (m : list (nat * V)) : without [] m = m.
Proof. unfold without. cbn. induction m as [|x m IH]; cbn; [reflexivity|]. rewrite IH. reflexivity. Qed.
Lemma without_cons {V} i l (m : list (nat * V)) : without (i :: l) m = without l (m_remove m i).
Proof.
  unfold without, m_remove. induction m as [|[k v] m IH]; cbn [filter]; [reflexivity|]. cbn [fst existsb] in IH |- *. rewrite IH. destruct (k =? i); cbn [orb negb filter fst]; [reflexivity|].
  destruct (existsb (Nat.eqb k) l); reflexivity.
Qed.
Lemma abm_reject_debug E rej : dbg E = true -> forall m, NoDup rej -> incl rej (map fst m) -> abm_reject E m rej = Ret (without rej m).
Proof.
  intros Hd. unfold abm_reject. rewrite Hd. induction rej as [|i rej IH]; intros m Hn Hi; cbn [foldM].
  - rewrite without_nil. reflexivity.
  - destruct (proj2 (m_get_some m i) (Hi i (or_introl eq_refl))) as [v ->]. cbn [bind]. inversion Hn as [|? ? Hni Hn']; subst. rewrite IH.
    + rewrite without_cons. reflexivity.
    + exact Hn'.
    + intros j Hj. apply m_remove_keys. split; [apply Hi; right; exact Hj|]. intros ->. contradiction.
Qed.
Lemma abm_reject_debug_inv E rej : dbg E = true -> forall m m', abm_reject E m rej = Ret m' -> NoDup rej /\ incl rej (map fst m).
Proof.
  intros Hd. unfold abm_reject. rewrite Hd. induction rej as [|i rej IH]; intros m m' H; cbn [foldM] in H.
  - split; [constructor|intros ? []].
  - destruct (m_get m i) as [v|] eqn:Hg; [|discriminate]. cbn [bind] in H. apply IH in H. destruct H as [H1 H2].
    assert (Hi : In i (map fst m)) by (apply m_get_some; eauto). split.
    + constructor; [|exact H1]. intros Hc. apply H2, m_remove_keys in Hc. tauto.
    + intros j [<-|Hj]; [exact Hi|]. apply H2, m_remove_keys in Hj. tauto.
Qed.
Lemma abm_reject_debug_panic E rej : dbg E = true -> forall m, (exists m', abm_reject E m rej = Ret m') \/ abm_reject E m rej = Panic PDebugAssert.
Proof.
  intros Hd. unfold abm_reject. rewrite Hd. induction rej as [|i rej IH]; intros m; cbn [foldM]; [left; eauto|].
  destruct (m_get m i); cbn [bind]; [apply IH|right; reflexivity].
Qed.
Lemma abm_debug E c rej n : dbg E = true ->
  (NoDup rej -> incl rej (map fst (c_abm c)) ->
     exists agg, abm_result E c rej n = Ret (set_abm c (without rej (c_abm c)), agg) /\ is_table (c_len c) n (map snd (without rej (c_abm c))) agg) /\
  (~ (NoDup rej /\ incl rej (map fst (c_abm c))) -> abm_result E c rej n = Panic PDebugAssert).
Proof.
  intros Hd. split.
  - intros Hn Hi. unfold abm_result. rewrite abm_reject_debug by assumption. cbn [bind]. eexists. split; [reflexivity|]. apply table_of.
  - intros H. unfold abm_result. destruct (abm_reject_debug_panic E rej Hd (c_abm c)) as [[m' Hm]| ->]; [|reflexivity].
    exfalso. apply H. eapply abm_reject_debug_inv; eauto.
Qed.

Lemma abm_rejected_spec E len l : forall i rej, abm_rejected E len i l = Ret rej ->
  (forall k, count_occ Nat.eq_dec rej (i + k) =
     match nth_error l k with
     | Some ((v0, p0), (v1, p1)) => (match flp_decide E len (vec_add v0 v1) with Some true => 0 | _ => 1 end) + (if bytes_eqb p0 p1 then 0 else 1)
     | None => 0 end) /\ forall j, In j rej -> i <= j < i + length l.
Proof.
  induction l as [|[[v0 p0] [v1 p1]] l IH]; intros i rej H; cbn [abm_rejected] in H.
  - injection H as <-. split; [intros [|k]; reflexivity|intros j []].
  - bret H as ok Hok. bret H as rest Hr. injection H as <-. apply unwrap_ret in Hok. apply IH in Hr. destruct Hr as [Hc Hb].
    split.
    + intros k. rewrite !count_occ_app.
      assert (H1 : forall b : bool, count_occ Nat.eq_dec (if b then [] else [i]) (i + k) = match k with O => if b then 0 else 1 | S _ => 0 end).
      { intros []; destruct k; cbn [count_occ]; try reflexivity; destruct (Nat.eq_dec i _); try reflexivity; lia. }
      rewrite !H1. destruct k as [|k]; cbn [nth_error].
      * rewrite Hok. assert (Hz : count_occ Nat.eq_dec rest (i + 0) = 0). { apply count_occ_not_In. intros Hin. apply Hb in Hin. lia. }
        rewrite Hz. destruct ok; lia.
      * replace (i + S k) with (S i + k) by lia. rewrite Hc. reflexivity.
    + intros j Hj. rewrite !in_app_iff in Hj. cbn [length]. destruct Hj as [Hj|[Hj|Hj]].
      * destruct ok; [destruct Hj|]. destruct Hj as [<-|[]]. lia.
      * destruct (bytes_eqb p0 p1); [destruct Hj|]. destruct Hj as [<-|[]]. lia.
      * apply Hb in Hj. lia.
Qed.
Lemma both_checks_fail E len start l rej k v0 p0 v1 p1 c n : dbg E = true -> abm_rejected E len start l = Ret rej ->
  nth_error l k = Some ((v0, p0), (v1, p1)) -> flp_decide E len (vec_add v0 v1) = Some false -> p0 <> p1 ->
  abm_result E c rej n = Panic PDebugAssert.
Proof.
  intros Hd Hr Hk Hf Hp. apply (proj2 (abm_debug E c rej n Hd)). intros [Hn _]. apply abm_rejected_spec in Hr. destruct Hr as [Hc _].
  specialize (Hc k). rewrite Hk, Hf in Hc. rewrite (NoDup_count_occ Nat.eq_dec) in Hn. specialize (Hn (start + k)).
  destruct (bytes_eqb p0 p1) eqn:He; [apply bytes_eqb_eq in He; contradiction|]. lia.
Qed.
(** keys are unique in every reachable state *)
Lemma abm_keys_body E s q c a : NoDup (map fst (c_abm (s_coll s))) -> body E s q = Ret (c, a) -> NoDup (map fst (c_abm c)).
Proof.
  intros Hn H. destruct q; cbn [body] in H.
  - destruct (hist_ok hist_buckets); [|discriminate]. injection H as <- <-. constructor.
  - injection H as <- <-. rewrite add_reports_spec. exact Hn.
  - bret H as c1 H1. injection H as <- <-. unfold tree_init in H1. bret H1 as st Hst. injection H1 as <-. exact Hn.
  - bret H as u Hu. bret H as v Hv. injection H as <- <-. exact Hn.
  - bret H as c1 H1. injection H as <- <-. rewrite apply_flp_results_spec in H1. destruct (_ =? _); [|discriminate]. injection H1 as <-. exact Hn.
  - bret H as [c1 [[v r] i]] H1. injection H as <- <-. unfold tree_crawl in H1. bret H1 as c2 H2.
    bret H1 as n0 Hn0. bret H1 as u Hu. bret H1 as nx Hnx. bret H1 as ck Hck. bret H1 as hs Hhs. bret H1 as u2 Hu2. bret H1 as [rr ii] Hm.
    injection H1 as <- <- <- <-. cbn [set_frontier set_prev c_abm]. unfold crawl_prepare in H2. destruct malicious as [|m0 ml]; [injection H2 as <-; exact Hn|].
    bret H2 as c3 H3. injection H2 as <-. cbn. destruct is_last; [|injection H3 as <-; exact Hn]. unfold reject_clients in H3. bret H3 as rp Hrp. injection H3 as <-. exact Hn.
  - bret H as [c1 v] H1. injection H as <- <-. unfold tree_crawl_last in H1. bret H1 as nx Hnx. bret H1 as pf Hpf. injection H1 as <- <-. exact Hn.
  - bret H as u Hu. injection H as <- <-. exact Hn.
  - bret H as c1 H1. injection H as <- <-. rewrite tree_prune_spec in H1. destruct (_ =? _); [|discriminate]. injection H1 as <-. exact Hn.
  - injection H as <- <-. exact Hn.
  - bret H as [c1 v] H1. injection H as <- <-. unfold abm_validate in H1. destruct (_ <? _); [discriminate|]. bret H1 as rs Hrs. injection H1 as <- <-. cbn [set_abm c_abm].
    clear -Hn. revert Hn. generalize (c_abm (s_coll s)). induction rs as [|[[[i vs] ver] pf] rs IH]; intros m Hn; cbn [fold_left]; [exact Hn|]. apply IH, nodup_insert, Hn.
  - bret H as [c1 v] H1. injection H as <- <-. unfold abm_result in H1. bret H1 as m Hm. injection H1 as <- <-. cbn [set_abm c_abm].
    unfold abm_reject in Hm. revert Hm Hn. generalize (c_abm (s_coll s)). intros m0. revert m0. induction rejected as [|i l IH]; intros m0 Hm Hn; cbn [foldM] in Hm; [injection Hm as <-; exact Hn|].
    bret Hm as m1 H1. destruct (dbg E); [|injection H1 as <-; apply (IH _ Hm Hn)]. destruct (m_get m0 i); [|discriminate]. injection H1 as <-. apply (IH _ Hm). apply nodup_filter_keys. exact Hn.
  - bret H as [c1 v] H1. injection H as <- <-. unfold pm_validate in H1. destruct (_ <? _); [discriminate|]. destruct (_ <? _)%Z; [discriminate|]. destruct (negb _); [discriminate|].
    bret H1 as rs Hrs. injection H1 as <- <-. exact Hn.
  - bret H as [c1 [ag rj]] H1. injection H as <- <-. unfold pm_result in H1. destruct (negb _); [discriminate|]. bret H1 as [m o] Hm. bret H1 as ag' Hag. injection H1 as <- <- <-. exact Hn.
Qed.
Lemma abm_keys_unique E id bits h0 qs : NoDup (map fst (c_abm (s_coll (fst (handle_all E (server_start id bits h0) qs))))).
Proof.
  assert (H : forall qs s, NoDup (map fst (c_abm (s_coll s))) -> NoDup (map fst (c_abm (s_coll (fst (handle_all E s qs)))))).
  { clear. induction qs as [|q qs IH]; intros s H; cbn [handle_all]; [exact H|].
    destruct (handle E s q) as [s1 a] eqn:Hh. destruct (handle_all E s1 qs) as [s2 l] eqn:Ha. cbn [fst].
    specialize (IH s1). rewrite Ha in IH. apply IH. apply handle_inv in Hh. destruct Hh as [(-> & _)|[(_ & -> & _)|(_ & c & r & Hb & -> & _)]]; [exact H|exact H|].
    cbn. exact (abm_keys_body E s q c r H Hb). }
  apply H. constructor.
Qed.

(** *** C34 *)
Lemma insert_all_spec (l : list (nat * list (list fld) * list fld * bytes)) : forall m,
  NoDup (map (fun r => let '(i, _, _, _) := r in i) l) ->
  fold_left (fun m r => let '(i, vs, _, _) := r in m_insert m i vs) l m =
  rev (map (fun r => let '(i, vs, _, _) := r in (i, vs)) l) ++ without (map (fun r => let '(i, _, _, _) := r in i) l) m.
Proof.
  induction l as [|[[[i vs] ver] pf] l IH]; intros m Hn; cbn [fold_left map rev]; [rewrite without_nil; reflexivity|].
  cbn [map] in Hn. inversion Hn as [|? ? Hi Hn']; subst. rewrite IH by exact Hn'. rewrite without_cons. rewrite <- app_assoc. f_equal.
  unfold m_insert, without at 1. cbn [filter fst].
  destruct (existsb (Nat.eqb i) (map (fun r => let '(i, _, _, _) := r in i) l)) eqn:He; [|reflexivity].
  apply existsb_exists in He. destruct He as (x & Hx & He). apply Nat.eqb_eq in He. subst x. contradiction.
Qed.
Lemma validate_shape E c attrs a b c' v : abm_validate E c attrs a b = Ret (c', v) ->
  a <= b /\ exists vss, length vss = b - a /\ (forall k vs, nth_error vss k = Some vs -> attr_share E c attrs (a + k) vs) /\
  c' = set_abm c (rev (combine (seq a (b - a)) vss) ++ without (seq a (b - a)) (c_abm c)).
Proof.
  unfold abm_validate. destruct (b <? a) eqn:Hlt; [discriminate|]. apply Nat.ltb_ge in Hlt. intros H. bret H as rs Hrs. injection H as <- <-.
  split; [exact Hlt|]. exists (map (fun r => let '(_, vs, _, _) := r in vs) rs).
  pose proof (mapM_length _ _ _ Hrs) as Hl. rewrite seq_length in Hl. rewrite map_length. split; [exact Hl|].
  assert (Hk : map (fun r => let '(i, _, _, _) := r in i) rs = seq a (b - a) /\ forall k vs, nth_error (map (fun r => let '(_, vs, _, _) := r in vs) rs) k = Some vs -> attr_share E c attrs (a + k) vs).
  { clear Hl Hlt. revert Hrs. generalize (b - a). intros n. revert a rs. induction n as [|n IH]; intros a rs Hrs; cbn [seq mapM] in Hrs.
    - injection Hrs as <-. split; [reflexivity|intros [|k] vs Hv; discriminate].
    - bret Hrs as r Hr. bret Hrs as rest Hrest. injection Hrs as <-. apply IH in Hrest. destruct Hrest as [IH1 IH2].
      unfold abm_validate_one in Hr. bret Hr as [h rp] Hhr. apply index_ret in Hhr. bret Hr as k Hk. destruct rp as [nonce key proof jr|]; [|discriminate]. injection Hk as <-.
      bret Hr as [[vs beta] tr] Het. bret Hr as j Hj. bret Hr as q Hq. bret Hr as p Hp. bret Hr as w Hw. injection Hr as <-. cbn [map seq]. split; [rewrite IH1; reflexivity|].
      intros [|k] x Hx; cbn [nth_error] in Hx.
      + injection Hx as <-. rewrite Nat.add_0_r. exists h, nonce, key, proof, jr, beta, tr. split; [exact Hhr|exact Het].
      + replace (a + S k) with (S a + k) by lia. apply IH2. exact Hx. }
  destruct Hk as [Hk1 Hk2]. split; [exact Hk2|]. rewrite insert_all_spec by (rewrite Hk1; apply seq_NoDup). rewrite Hk1. do 3 f_equal.
  rewrite <- Hk1. clear. induction rs as [|[[[i vs] ver] pf] rs IH]; cbn; [reflexivity|]. f_equal. exact IH.
Qed.
Lemma fsum_app a b : fsum (a ++ b) = fadd (fsum a) (fsum b).
Proof. induction a as [|x a IH]; cbn [app fsum]; [change (of_Z 0) with fzero; ring|]. rewrite IH. ring. Qed.
Lemma fsum_rev a : fsum (rev a) = fsum a.
Proof. induction a as [|x a IH]; cbn [rev fsum]; [reflexivity|]. rewrite fsum_app, IH. cbn [fsum]. change (of_Z 0) with fzero. ring. Qed.
Lemma total_app a j v w : total a j (v ++ w) = fadd (total a j v) (total a j w).
Proof. unfold total. rewrite map_app, fsum_app. reflexivity. Qed.
Lemma total_rev a j v : total a j (rev v) = total a j v.
Proof. unfold total. rewrite map_rev, fsum_rev. reflexivity. Qed.
Lemma map_snd_combine {A B} (l : list A) : forall (l' : list B), length l = length l' -> map snd (combine l l') = l'.
Proof. induction l as [|x l IH]; intros [|y l'] H; cbn in *; try discriminate; [reflexivity|]. rewrite IH by lia. reflexivity. Qed.
Lemma map_fst_combine {A B} (l : list A) : forall (l' : list B), length l = length l' -> map fst (combine l l') = l.
Proof. induction l as [|x l IH]; intros [|y l'] H; cbn in *; try discriminate; [reflexivity|]. rewrite IH by lia. reflexivity. Qed.

(** the table returned for a batch covers the batch and everything left from earlier batches *)
Lemma batch_table E c attrs a b c' v n : abm_validate E c attrs a b = Ret (c', v) ->
  exists vss agg, length vss = b - a /\ (forall k vs, nth_error vss k = Some vs -> attr_share E c attrs (a + k) vs) /\
  abm_result E c' [] n = Ret (c', agg) /\ is_table (c_len c) n (vss ++ map snd (without (seq a (b - a)) (c_abm c))) agg.
Proof.
  intros H. apply validate_shape in H. destruct H as (Hab & vss & Hl & Hs & ->). exists vss.
  unfold abm_result, abm_reject. cbn [foldM bind]. eexists. split; [exact Hl|]. split; [exact Hs|]. rewrite set_abm_id. split; [reflexivity|].
  match goal with |- is_table _ _ _ (fold_left _ ?m _) => pose proof (table_of (fun kv : nat * list (list fld) => snd kv) m (c_len c) n) as Ht end. cbn [set_abm c_abm c_len] in *.
  destruct Ht as [Hl1 Ht]. split; [exact Hl1|]. intros x Hx. destruct (Ht x Hx) as [H1 H2]. split; [exact H1|]. intros j Hj. rewrite H2 by exact Hj.
  rewrite map_app, !total_app, map_rev, total_rev, map_snd_combine by (rewrite seq_length; lia). reflexivity.
Qed.
Lemma batch_table_fresh E c attrs a b c' v n : c_abm c = [] -> abm_validate E c attrs a b = Ret (c', v) ->
  exists vss agg, length vss = b - a /\ (forall k vs, nth_error vss k = Some vs -> attr_share E c attrs (a + k) vs) /\
  abm_result E c' [] n = Ret (c', agg) /\ is_table (c_len c) n vss agg.
Proof. intros Hc H. destruct (batch_table E c attrs a b c' v n H) as (vss & agg & H1 & H2 & H3 & H4). rewrite Hc in H4. cbn in H4. rewrite app_nil_r in H4. eauto 10. Qed.
(** in terms of the code alone: the second batch returns the sum of both *)
Lemma two_batches E c attrs a b d c1 v1 c2 v2 n : c_abm c = [] ->
  abm_validate E c attrs a b = Ret (c1, v1) -> abm_validate E c1 attrs b d = Ret (c2, v2) ->
  exists agg1 agg2 aggB cB vB, abm_result E c1 [] n = Ret (c1, agg1) /\ abm_result E c2 [] n = Ret (c2, agg2) /\
    abm_validate E c attrs b d = Ret (cB, vB) /\ abm_result E cB [] n = Ret (cB, aggB) /\
    forall x j, x < n -> j < c_len c -> comp x j agg2 = fadd (comp x j agg1) (comp x j aggB).
Proof.
  intros Hc H1 H2. pose proof (validate_shape _ _ _ _ _ _ _ H1) as (Hab & vss1 & L1 & S1 & Hc1).
  assert (Hsame : exists cB, abm_validate E c attrs b d = Ret (cB, v2)).
  { unfold abm_validate in *. destruct (d <? b); [discriminate|]. bret H2 as rs Hrs. injection H2 as <- <-.
    replace (mapM (abm_validate_one E c attrs) (seq b (d - b))) with (mapM (abm_validate_one E c1 attrs) (seq b (d - b))); [rewrite Hrs; cbn; eauto|].
    apply mapM_ext. intros i _. rewrite Hc1. reflexivity. }
  destruct Hsame as [cB HB].
  destruct (batch_table_fresh E c attrs a b c1 v1 n Hc H1) as (w1 & agg1 & W1 & X1 & R1 & T1).
  destruct (batch_table_fresh E c attrs b d cB v2 n Hc HB) as (w2 & aggB & W2 & X2 & R2 & T2).
  destruct (batch_table E c1 attrs b d c2 v2 n H2) as (w3 & agg2 & W3 & X3 & R3 & T3).
  assert (Hdet : forall c' w w', c_reports c' = c_reports c -> c_len c' = c_len c -> length w = length w' -> forall o, (forall k vs, nth_error w k = Some vs -> attr_share E c attrs (o + k) vs) -> (forall k vs, nth_error w' k = Some vs -> attr_share E c' attrs (o + k) vs) -> w = w').
  { intros c' w w' Hr Hln Hll o Hw Hw'. apply nth_error_ext. intros i. destruct (nth_error w i) as [x|] eqn:Hx.
    - destruct (nth_error w' i) as [y|] eqn:Hy; [|apply nth_error_None in Hy; assert (i < length w) by (apply nth_error_Some; congruence); lia].
      apply Hw in Hx. apply Hw' in Hy. destruct Hx as (? & ? & ? & ? & ? & ? & ? & Hx1 & Hx2), Hy as (? & ? & ? & ? & ? & ? & ? & Hy1 & Hy2). rewrite Hr in Hy1. rewrite Hln in Hy2. congruence.
    - destruct (nth_error w' i) eqn:Hy; [|reflexivity]. apply nth_error_None in Hx. assert (i < length w') by (apply nth_error_Some; congruence). lia. }
  assert (w2 = w3) by (apply (Hdet c1 w2 w3) with (o := b); [rewrite Hc1; reflexivity|rewrite Hc1; reflexivity|lia|exact X2|exact X3]). subst w3.
  assert (w1 = vss1) by (apply (Hdet c w1 vss1) with (o := a); [reflexivity|reflexivity|lia|exact X1|exact S1]). subst w1.
  exists agg1, agg2, aggB, cB, v2. split; [exact R1|]. split; [exact R3|]. split; [exact HB|]. split; [exact R2|].
  intros x j Hx Hj. destruct T1 as [_ T1], T2 as [_ T2], T3 as [_ T3].
  unfold comp at 1 2 3. rewrite (proj2 (T1 x Hx)) by exact Hj. rewrite (proj2 (T2 x Hx)) by exact Hj.
  rewrite (proj2 (T3 x Hx)) by (rewrite Hc1; exact Hj). rewrite total_app. rewrite Hc1 at 1. cbn [set_abm c_abm]. rewrite Hc.
  assert (Hw : without (seq b (d - b)) (rev (combine (seq a (b - a)) vss1) ++ without (seq a (b - a)) []) = rev (combine (seq a (b - a)) vss1)).
  { change (without (seq a (b - a)) []) with (@nil (nat * list (list fld))). rewrite app_nil_r. unfold without.
    assert (Hall : forall kv, In kv (rev (combine (seq a (b - a)) vss1)) -> negb (existsb (Nat.eqb (fst kv)) (seq b (d - b))) = true).
    { intros kv Hin. apply in_rev in Hin. destruct kv as [k vs]. apply in_combine_l in Hin. apply in_seq in Hin. cbn [fst]. apply negb_true_iff.
      destruct (existsb (Nat.eqb k) (seq b (d - b))) eqn:He; [|reflexivity]. apply existsb_exists in He. destruct He as (z & Hz & He). apply Nat.eqb_eq in He. apply in_seq in Hz. lia. }
    revert Hall. generalize (rev (combine (seq a (b - a)) vss1)). intros q. induction q as [|kv q IH]; intros Hall; [reflexivity|]. cbn [filter]. rewrite Hall by (left; reflexivity). f_equal. apply IH. intros; apply Hall; right; assumption. }
  rewrite Hw, map_rev, total_rev, map_snd_combine by (rewrite seq_length; lia). ring.
Qed.
