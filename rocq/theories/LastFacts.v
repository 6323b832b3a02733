(** The last level for arbitrary reports (C29, C30). *)
From Verif Require Import Base BaseFacts Field Util UtilFacts Env Prg Vidpf SpecVidpf SpecTree Merkle Collect Server Driver SpecCollect SpecServer SpecDriver SpecCheck SpecLevel SpecWhh SpecSearch SpecLast
  CollectFacts CollectInv ServerFacts DriverFacts RefuteFacts MerkleFacts LevelFacts PairFacts WhhFacts WhhFacts2 SearchFacts SearchRun SearchMain SearchProp HonestFacts.

(** *** which proofs are compared *)
Definition eq2 (hh : bytes * bytes) : bool := bytes_eqb (fst hh) (snd hh).
Lemma combine_skipn {A B} : forall n (a : list A) (b : list B), combine (skipn n a) (skipn n b) = skipn n (combine a b).
Proof. induction n as [|n IH]; intros [|x a] [|y b]; cbn [skipn combine]; try reflexivity; [destruct (skipn n a); reflexivity|apply IH]. Qed.
Lemma combine_firstn2 {A B} : forall n (a : list A) (b : list B), combine (firstn n a) (firstn n b) = firstn n (combine a b).
Proof. induction n as [|n IH]; intros [|x a] [|y b]; cbn [firstn combine]; try reflexivity. f_equal. apply IH. Qed.
Lemma slice_combine {A B} u v (a : list A) (b : list B) : combine (slice u v a) (slice u v b) = slice u v (combine a b).
Proof. unfold slice. rewrite combine_firstn2, combine_skipn. reflexivity. Qed.
Lemma slice_then {A} u v c (l : list A) : u <= v -> v <= c -> skipn u (firstn c l) = slice u v l ++ skipn v (firstn c l).
Proof.
  intros H1 H2. unfold slice. rewrite <- (firstn_skipn (v - u) (skipn u (firstn c l))). f_equal.
  - rewrite skipn_firstn_comm, firstn_firstn. f_equal. lia.
  - rewrite skipn_skipn'. f_equal. lia.
Qed.
Lemma slice_len {A} u v (l : list A) : v <= length l -> length (slice u v l) = v - u.
Proof. intros H. unfold slice. rewrite firstn_length, skipn_length. lia. Qed.
Lemma skipn_nothing {A} n c (l : list A) : c <= n -> skipn n (firstn c l) = [].
Proof. intros H. apply skipn_all2. rewrite firstn_length. lia. Qed.

Lemma proofs_loop_exact E cfg s0 s1 n m : 0 < cfg_query_batch cfg -> s_poison s0 = false -> s_poison s1 = false ->
  length (c_final (s_coll s0)) = m -> length (c_final (s_coll s1)) = m -> m <= n ->
  forall fuel j, n - j * cfg_query_batch cfg <= fuel -> proofs_loop fuel E cfg s0 s1 n (j * cfg_query_batch cfg) =
    if forallb eq2 (skipn (j * cfg_query_batch cfg) (firstn (compared n m (cfg_query_batch cfg)) (combine (c_final (s_coll s0)) (c_final (s_coll s1)))))
    then Ret (s0, s1) else Panic PAssert.
Proof.
  intros Hb H0 H1 L0 L1 Hm. set (b := cfg_query_batch cfg) in *. set (cm := combine (c_final (s_coll s0)) (c_final (s_coll s1))).
  assert (Hc : compared n m b <= n). { unfold compared. destruct (m =? n); [lia|]. pose proof (Nat.div_mod m b ltac:(lia)). lia. }
  induction fuel as [|f IH]; intros j Hf; cbn [proofs_loop].
  - rewrite (proj2 (Nat.ltb_ge _ _)) by lia. rewrite skipn_nothing by lia. reflexivity.
  - destruct (j * b <? n) eqn:Hlt; [|apply Nat.ltb_ge in Hlt; rewrite skipn_nothing by lia; reflexivity]. apply Nat.ltb_lt in Hlt. fold b. set (stop := Nat.min n (j * b + b)).
    assert (Hst : j * b < stop) by (unfold stop; lia).
    assert (Hh : forall s, s_poison s = false -> handle E s (QGetProofs (j * b) stop) = (s, Ret (AProofs (get_proofs (s_coll s) (j * b) stop)))).
    { intros s Hp. apply handle_ret. split; [reflexivity|]. split; [exact Hp|]. exists (s_coll s). split; [|symmetry; apply set_coll_id].
      cbn [body]. rewrite debug_assert_true by (apply Nat.ltb_lt; exact Hst). reflexivity. }
    rewrite (proj2 (call2_ret _ _ _ _ _ _ _ _ _) (conj (Hh _ H0) (Hh _ H1))). cbn [bind].
    replace (j * b + b) with (S j * b) by lia. rewrite IH by (cbn [Nat.mul]; lia). fold cm.
    unfold get_proofs. rewrite L0, L1, (proj2 (Nat.ltb_lt _ _) Hst). cbn [andb]. destruct (stop <=? m) eqn:Hs.
    + apply Nat.leb_le in Hs. rewrite !slice_len by lia. rewrite (proj2 (assert_true _)) by apply Nat.eqb_refl. cbn [bind]. rewrite slice_combine. fold cm.
      assert (Hsc : stop <= compared n m b).
      { unfold compared. destruct (m =? n) eqn:He; [unfold stop; lia|]. apply Nat.eqb_neq in He. unfold stop in Hs |- *.
        assert (Hd : S j <= m / b) by (apply Nat.div_le_lower_bound; lia). pose proof (Nat.mul_le_mono_r _ _ b Hd). cbn [Nat.mul] in *. lia. }
      rewrite (slice_then (j * b) stop (compared n m b) cm) by lia. rewrite forallb_app.
      change (fun hh : bytes * bytes => bytes_eqb (fst hh) (snd hh)) with eq2.
      assert (Hk : skipn stop (firstn (compared n m b) cm) = skipn (S j * b) (firstn (compared n m b) cm)).
      { destruct (Nat.le_gt_cases (j * b + b) n) as [Hn|Hn]; [f_equal; unfold stop; cbn [Nat.mul]; lia|]. rewrite !skipn_nothing; [reflexivity|cbn [Nat.mul]; lia|unfold stop; lia]. }
      rewrite Hk. unfold assert_. destruct (forallb eq2 (slice (j * b) stop cm)); reflexivity.
    + apply Nat.leb_gt in Hs. rewrite (proj2 (assert_true _)) by reflexivity. cbn [bind combine forallb].
      assert (Hcj : compared n m b <= j * b).
      { unfold compared. destruct (m =? n) eqn:He; [apply Nat.eqb_eq in He; unfold stop in Hs; lia|]. unfold stop in Hs.
        assert (Hd : m / b < S j) by (apply Nat.div_lt_upper_bound; [lia|]; nia). nia. }
      rewrite !skipn_nothing by (cbn [Nat.mul]; lia). reflexivity.
Qed.

(** *** the values *)
Section Last.
Variables (E : env) (len bits level : nat) (paths : list (list bool)) (R : list pair) (s0 s1 : server) (fuel : nat) (cfg : config).
Hypothesis Hok : env_ok E.
Hypothesis A0' : at_frontier E true len bits paths (held true R) s0.
Hypothesis A1' : at_frontier E false len bits paths (held false R) s1.
Hypothesis Hwf : Forall (fun x => well_formed bits (share_of true x) /\ well_formed bits (share_of false x)) R.
Hypothesis Hp : forall p, In p paths -> length p = level.
Hypothesis Hl : level < bits.
Hypothesis Hcfg : cfg_hist cfg = len.
Hypothesis Hb : 0 < cfg_query_batch cfg.
Hypothesis Hfuel : length R <= fuel.

Lemma seen_sum p : sum_vec (len + 1) (sum_honest (len + 1) (words_of E len (held true R) p) (held true R)) (sum_honest (len + 1) (words_of E len (held false R) p) (held false R)) =
  map (seen_value E len R p) (seq 0 (len + 1)).
Proof.
  unfold sum_vec. apply map_ext_in. intros j Hj. apply in_seq in Hj.
  rewrite !sum_honest_nth by (try lia; unfold words_of; rewrite map_length; reflexivity). unfold masked_sum, words_of, held. rewrite !map_map. cbn [fst snd].
  rewrite !select_flags, !map_map, fsum_add. reflexivity.
Qed.
Lemma last_any : exists t0 t1, run_level_last fuel E cfg s0 s1 (length R) =
  if forallb (proofs_agree E len paths) (firstn (compared (length R) (length (remaining R)) (cfg_query_batch cfg)) (remaining R))
  then Ret (t0, t1, map (seen_result E len R) (survivors E len (threshold cfg) R paths)) else Panic PAssert.
Proof.
  pose proof (at_side _ _ _ _ _ _ _ A0') as A0. pose proof (at_side _ _ _ _ _ _ _ A1') as A1.
  assert (Hd : forall first p, length p <= bits -> defined_at E len (held first R) p).
  { intros first p Hpl. apply (wf_defined E Hok bits); [|exact Hpl]. unfold held. rewrite map_map. cbn [snd]. apply Forall_map.
    eapply Forall_impl; [|exact Hwf]. intros x [Ha Hb']. destruct first; assumption. }
  assert (Hp' : forall p, In p paths -> length p < bits) by (intros p Hin; rewrite (Hp p Hin); exact Hl).
  destruct (handle_last E len bits [] cfg Hcfg _ _ _ _ A0 Hp' (Hd true)) as (a0 & HA0 & HS0 & HF0 & HL0). destruct (handle_last E len bits [] cfg Hcfg _ _ _ _ A1 Hp' (Hd false)) as (a1 & HA1 & HS1 & HF1 & HL1).
  destruct (handle_prune E len bits _ _ _ _ (fun p => (threshold cfg <=? seen_count E len R p)%Z) HS0 HF0) as (t0 & HP0 & HT0 & HR0 & _).
  destruct (handle_prune E len bits _ _ _ _ (fun p => (threshold cfg <=? seen_count E len R p)%Z) HS1 HF1) as (t1 & HP1 & HT1 & HR1 & _).
  exists t0, t1. unfold run_level_last. rewrite (proj2 (call2_ret _ _ _ _ _ _ _ _ _) (conj HA0 HA1)). cbn [bind].
  rewrite (proj2 (assert_true _)) by (rewrite !map_length; apply Nat.eqb_refl). cbn [bind]. rewrite Hcfg.
  pose proof (keep_seen E len (threshold cfg) paths R) as Hk. unfold values_of in Hk. rewrite Hk. cbn [bind].
  assert (HF0' : c_final (s_coll a0) = map (fun x => proofs_xor E len (children paths) (key_of (share_of true x))) (remaining R)).
  { rewrite HL0, held_remaining. unfold held. rewrite map_map. reflexivity. }
  assert (HF1' : c_final (s_coll a1) = map (fun x => proofs_xor E len (children paths) (key_of (share_of false x))) (remaining R)).
  { rewrite HL1, held_remaining. unfold held. rewrite map_map. reflexivity. }
  pose proof (proofs_loop_exact E cfg a0 a1 (length R) (length (remaining R)) Hb (proj1 HS0) (proj1 HS1)) as HPL.
  specialize (HPL ltac:(rewrite HF0', map_length; reflexivity) ltac:(rewrite HF1', map_length; reflexivity) (remaining_le R) fuel 0 ltac:(cbn; lia)).
  cbn [Nat.mul skipn] in HPL. rewrite HPL, HF0', HF1', combine_maps, firstn_map.
  assert (Hag : forall l, forallb eq2 (map (fun x => (proofs_xor E len (children paths) (key_of (share_of true x)), proofs_xor E len (children paths) (key_of (share_of false x)))) l) = forallb (proofs_agree E len paths) l).
  { induction l as [|x l IH]; [reflexivity|]. cbn [map forallb]. rewrite IH. reflexivity. }
  rewrite Hag. clear Hag. destruct (forallb (proofs_agree E len paths) _); [|reflexivity]. cbn [bind].
  rewrite (proj2 (call2_done_ret _ _ _ _ _ t0 t1)) by eauto. cbn [bind].
  assert (Hfin : forall t, s_poison t = false -> handle E t QFinalShares = (t, Ret (AFinal (final_shares (s_coll t))))).
  { intros t Ht. apply handle_ret. split; [reflexivity|]. split; [exact Ht|]. eexists. split; [reflexivity|]. symmetry. apply set_coll_id. }
  rewrite (proj2 (call2_ret _ _ _ _ _ _ _ _ _) (conj (Hfin t0 (proj1 HT0)) (Hfin t1 (proj1 HT1)))). cbn [bind].
  unfold final_shares. rewrite HR0, HR1, !map_map. cbn [mknode tn_path tn_value].
  rewrite final_values_spec, !map_length, Nat.eqb_refl. cbn [andb].
  assert (Hpe : forall l : list (list bool), forallb (fun rr : result * result => path_eqb (res_path (fst rr)) (res_path (snd rr)))
      (combine (map (fun p => {| res_path := p; res_value := sum_honest (len + 1) (words_of E len (held true R) p) (held true R) |}) l)
               (map (fun p => {| res_path := p; res_value := sum_honest (len + 1) (words_of E len (held false R) p) (held false R) |}) l)) = true).
  { induction l as [|x l IH]; [reflexivity|]. cbn [map combine forallb fst snd res_path]. rewrite (proj2 (path_eqb_eq x x)) by reflexivity. exact IH. }
  rewrite Hpe. cbn [bind]. rewrite (reconstruct_maps len). do 3 f_equal. fold (survivors E len (threshold cfg) R paths).
  rewrite (map_ext _ (seen_result E len R)) by (intros p; unfold seen_result; rewrite <- seen_sum; reflexivity).
  assert (Hall : forall l, (forall x, In x l -> counter_nonzero len x = true) -> filter (counter_nonzero len) l = l).
  { induction l as [|x l IH]; intros H; [reflexivity|]. cbn [filter]. rewrite (H x (or_introl eq_refl)), IH by (intros; apply H; right; assumption). reflexivity. }
  apply Hall. intros x Hx. apply in_map_iff in Hx. destruct Hx as (p & <- & Hin). apply filter_In in Hin. destruct Hin as [_ Hh]. apply Z.leb_le in Hh.
  unfold counter_nonzero, seen_result. cbn [res_value]. rewrite seq_app, map_app, app_nth2, map_length, seq_length, Nat.sub_diag by (rewrite map_length, seq_length; lia). cbn [seq map nth Nat.add].
  unfold seen_count in Hh. fold (seen_value E len R p len) in Hh. apply negb_true_iff, Z.eqb_neq. intros Hz. rewrite Hz in Hh. unfold threshold in Hh. rewrite Z.mod_0_l in Hh by discriminate. lia.
Qed.
End Last.
Lemma last_exact E len bits level paths R s0 s1 fuel cfg : env_ok E -> level_start E len bits level paths R s0 s1 -> cfg_hist cfg = len -> 0 < cfg_query_batch cfg -> length R <= fuel ->
  exists t0 t1, run_level_last fuel E cfg s0 s1 (length R) =
  if forallb (proofs_agree E len paths) (firstn (compared (length R) (length (remaining R)) (cfg_query_batch cfg)) (remaining R))
  then Ret (t0, t1, map (seen_result E len R) (survivors E len (threshold cfg) R paths)) else Panic PAssert.
Proof. intros Hok (A & B & C & _ & D & F) G H I. apply (last_any E len bits level paths R s0 s1 fuel cfg); assumption. Qed.
