(** Proofs about plain metrics (Prio3) in Server.v and Driver.v. *)
From Verif Require Import Base BaseFacts Field Util UtilFacts Env Prg Vidpf VidpfFacts Merkle Collect Server Driver
  SpecCollect SpecServer SpecDriver SpecMetrics CollectFacts CollectInv ServerFacts DriverFacts MetricsFacts.

(** the number of accepted reports of a batch *)
Lemma count_fine E n rej : (rej <= Z.of_nat n)%Z -> count_ok E n rej = Ret tt.
Proof. intros H. unfold count_ok. destruct (Z.ltb_spec (Z.of_nat n) rej); [lia|]. rewrite andb_false_r. reflexivity. Qed.

(** *** consumption of the preparation states *)
Lemma pm_loop_shape E len sid l : forall m m' outs, NoDup (map fst l) -> pm_result_loop E len sid m l = Ret (m', outs) ->
  m' = without (map fst l) m /\ length outs <= length l /\ incl (map fst l) (map fst m).
Proof.
  induction l as [|[i peer] l IH]; intros m m' outs Hn H; cbn [pm_result_loop] in H.
  - injection H as <- <-. cbn [map]. rewrite without_nil. repeat split; [cbn; lia|intros ? []].
  - bret H as [m1 o] H1. bret H as [m2 os] H2. injection H as <- <-. cbn [map fst] in Hn |- *. inversion Hn as [|? ? Hni Hn']; subst.
    unfold pm_result_one in H1. bret H1 as [st sh] Hg. apply unwrap_ret in Hg.
    assert (Hm1 : m1 = m_remove m i).
    { bret H1 as p Hp. destruct (if (sid =? 0)%Z then (sh, p) else (p, sh)) as [a b]. destruct (p3_msg E len a b); [|congruence].
      destruct (p3_next E len st b0) as [[out|]|]; congruence. }
    subst m1. apply IH in H2; [|exact Hn']. destruct H2 as (-> & Hl & Hi). split; [rewrite without_cons; reflexivity|]. split.
    + destruct o; cbn [length]; lia.
    + intros j [<-|Hj]; [apply m_get_some; eauto|]. apply Hi, m_remove_keys in Hj. tauto.
Qed.

Lemma combine_keys a b (peers : list bytes) : map fst (combine (seq a (b - a)) peers) = seq a (Nat.min (b - a) (length peers)).
Proof.
  generalize (b - a). intros n. revert a peers. induction n as [|n IH]; intros a peers; cbn [seq combine map]; [reflexivity|].
  destruct peers as [|p peers]; cbn [combine map length Nat.min seq fst]; [reflexivity|]. rewrite IH. reflexivity.
Qed.
Lemma pm_result_shape E c sid peers a b c' agg rej : pm_result E c sid peers a b = Ret (c', (agg, rej)) ->
  let k := Nat.min (b - a) (length peers) in
  c' = set_pm c (without (seq a k) (c_pm c)) /\ incl (seq a k) (map fst (c_pm c)) /\
  exists outs, length outs <= k /\ p3_aggregate (c_len c) outs = Some agg /\
    rej = ((Z.of_nat b - Z.of_nat a - Z.of_nat (length outs)) mod 2 ^ 64)%Z.
Proof.
  unfold pm_result. destruct (negb _); [discriminate|]. intros H. bret H as [m outs] Hm. bret H as ag Hag. injection H as <- <- <-. cbn zeta.
  apply pm_loop_shape in Hm; [|rewrite combine_keys; apply seq_NoDup]. rewrite combine_keys in Hm. destruct Hm as (-> & Hl & Hi).
  split; [reflexivity|]. split; [exact Hi|]. exists outs. rewrite combine_length, seq_length in Hl. apply unwrap_ret in Hag. auto.
Qed.
Lemma pm_counts E c sid peers a b c' agg rej : (Z.of_nat b < 2 ^ 64)%Z -> a <= b -> pm_result E c sid peers a b = Ret (c', (agg, rej)) ->
  exists outs, p3_aggregate (c_len c) outs = Some agg /\ (Z.of_nat (length outs) + rej = Z.of_nat (b - a))%Z.
Proof.
  intros Hb Hab H. apply pm_result_shape in H. cbn zeta in H. destruct H as (_ & _ & outs & Hl & Ha & ->). exists outs. split; [exact Ha|].
  rewrite Z.mod_small by lia. lia.
Qed.
Lemma pm_twice E c sid peers peers2 a b c' r : a < b -> peers <> [] -> peers2 <> [] ->
  pm_result E c sid peers a b = Ret (c', r) -> pm_result E c' sid peers2 a b = Panic PUnwrap.
Proof.
  intros Hab Hp Hp2 H. destruct r as [agg rej]. pose proof H as H2. apply pm_result_shape in H. cbn zeta in H. destruct H as (-> & _ & _).
  unfold pm_result in *. cbn [set_pm c_len c_pm]. destruct (negb (hist_ok (c_len c))); [discriminate|].
  destruct peers2 as [|q peers2]; [contradiction|]. destruct (b - a) as [|n] eqn:Hn; [lia|]. cbn [seq combine pm_result_loop].
  unfold pm_result_one. replace (m_get (without (seq a (Nat.min (S n) (length peers))) (c_pm c)) a) with (@None (bytes * bytes)); [reflexivity|].
  symmetry. apply m_get_none. intros Hin. apply in_map_iff in Hin. destruct Hin as ([k v] & Hk & Hin). cbn in Hk. subst k. unfold without in Hin.
  apply filter_In in Hin. destruct Hin as [_ Hin]. destruct peers as [|p peers]; [contradiction|]. cbn [length Nat.min seq existsb fst] in Hin. rewrite Nat.eqb_refl in Hin. discriminate.
Qed.
Lemma pm_unvalidated E c sid peers a b : hist_ok (c_len c) = true -> a < b -> peers <> [] -> ~ In a (map fst (c_pm c)) -> pm_result E c sid peers a b = Panic PUnwrap.
Proof.
  intros Hh Hab Hp Hi. unfold pm_result. rewrite Hh. cbn [negb]. destruct peers as [|p peers]; [contradiction|]. destruct (b - a) as [|n] eqn:Hn; [lia|].
  cbn [seq combine pm_result_loop]. unfold pm_result_one. rewrite (proj2 (m_get_none _ _) Hi). reflexivity.
Qed.

(** *** end to end *)
Lemma m_insert_get {V} (m : list (nat * V)) i v j : m_get (m_insert m i v) j = if i =? j then Some v else m_get m j.
Proof.
  unfold m_get, m_insert. cbn [find fst]. destruct (i =? j) eqn:He; [reflexivity|]. apply Nat.eqb_neq in He.
  unfold m_remove. replace (find (fun kv : nat * V => fst kv =? j) (filter (fun kv => negb (fst kv =? i)) m)) with (find (fun kv : nat * V => fst kv =? j) m); [reflexivity|].
  induction m as [|[k w] m IH]; [reflexivity|]. cbn [find filter fst]. destruct (k =? i) eqn:Hi; cbn [negb].
  - apply Nat.eqb_eq in Hi. subst k. rewrite (proj2 (Nat.eqb_neq _ _) He). exact IH.
  - cbn [find fst]. destruct (k =? j); [reflexivity|exact IH].
Qed.
Lemma m_get_remove {V} (m : list (nat * V)) i j : i <> j -> m_get (m_remove m i) j = m_get m j.
Proof.
  intros He. unfold m_get. replace (find (fun kv => fst kv =? j) (m_remove m i)) with (find (fun kv : nat * V => fst kv =? j) m); [reflexivity|].
  unfold m_remove. induction m as [|[k w] m IH]; [reflexivity|]. cbn [find filter fst]. destruct (k =? i) eqn:Hi; cbn [negb].
  - apply Nat.eqb_eq in Hi. subst k. rewrite (proj2 (Nat.eqb_neq _ _) He). exact IH.
  - cbn [find fst]. destruct (k =? j); [reflexivity|exact IH].
Qed.
Lemma fold_insert_other {V} (rs : list (nat * V)) : forall m j, ~ In j (map fst rs) -> m_get (fold_left (fun m r => m_insert m (fst r) (snd r)) rs m) j = m_get m j.
Proof.
  induction rs as [|[i v] rs IH]; intros m j H; cbn [fold_left]; [reflexivity|]. cbn [map] in H. rewrite IH by (intros Hc; apply H; right; exact Hc).
  rewrite m_insert_get. cbn [fst]. rewrite (proj2 (Nat.eqb_neq _ _)); [reflexivity|]. intros ->. apply H. left. reflexivity.
Qed.
Lemma fold_insert_in {V} (rs : list (nat * V)) : forall m j v, NoDup (map fst rs) -> In (j, v) rs -> m_get (fold_left (fun m r => m_insert m (fst r) (snd r)) rs m) j = Some v.
Proof.
  induction rs as [|[i w] rs IH]; intros m j v Hn Hin; [destruct Hin|]. cbn [map] in Hn. inversion Hn as [|? ? Hi Hn']; subst. cbn [fold_left].
  destruct Hin as [Hin|Hin].
  - injection Hin as -> ->. rewrite fold_insert_other by exact Hi. rewrite m_insert_get. cbn. rewrite Nat.eqb_refl. reflexivity.
  - apply IH; assumption.
Qed.

(** one aggregator, the loop over a batch whose i-th preparation state is sts[i] *)
Definition pm_ok1 (E : env) (len : nat) (sid : Z) (st sh peer : bytes) (o : option (list fld)) : Prop :=
  p3_decode_share E st peer = Some peer /\
  let '(a, b) := if (sid =? 0)%Z then (sh, peer) else (peer, sh) in
  match o with
  | None => p3_msg E len a b = None \/ exists m, p3_msg E len a b = Some m /\ p3_next E len st m = None
  | Some out => exists m, p3_msg E len a b = Some m /\ p3_next E len st m = Some (P3Finish out)
  end.
Lemma pm_loop_run E len sid : forall (sts : list (bytes * bytes)) peers os a m,
  length peers = length sts -> length os = length sts ->
  (forall k st sh, nth_error sts k = Some (st, sh) -> m_get m (a + k) = Some (st, sh)) ->
  (forall k st sh peer o, nth_error sts k = Some (st, sh) -> nth_error peers k = Some peer -> nth_error os k = Some o -> pm_ok1 E len sid st sh peer o) ->
  exists m', pm_result_loop E len sid m (combine (seq a (length sts)) peers) = Ret (m', somes os).
Proof.
  induction sts as [|[st sh] sts IH]; intros peers os a m Hp Ho Hm Hr; cbn [length] in *.
  - destruct os; [|discriminate]. cbn. eauto.
  - destruct peers as [|peer peers]; [discriminate|]. destruct os as [|o os]; [discriminate|]. cbn [seq combine pm_result_loop].
    assert (H1 : pm_result_one E len sid m a peer = Ret (m_remove m a, o)).
    { unfold pm_result_one. specialize (Hm 0 st sh eq_refl). rewrite Nat.add_0_r in Hm. rewrite Hm. cbn [unwrap bind].
      destruct (Hr 0 st sh peer o eq_refl eq_refl eq_refl) as [Hd Hc]. rewrite Hd. cbn [unwrap bind].
      destruct (if (sid =? 0)%Z then (sh, peer) else (peer, sh)) as [x y]. destruct o as [out|].
      - destruct Hc as (mm & -> & ->). reflexivity.
      - destruct Hc as [->|(mm & -> & ->)]; reflexivity. }
    rewrite H1. cbn [bind]. destruct (IH peers os (S a) (m_remove m a)) as [m' Hm'].
    + cbn in Hp. lia.
    + cbn in Ho. lia.
    + intros k st' sh' Hk. rewrite m_get_remove by lia. replace (S a + k) with (a + S k) by lia. apply Hm. exact Hk.
    + intros k st' sh' p' o' H2 H3 H4. apply (Hr (S k)); assumption.
    + rewrite Hm'. cbn [bind]. exists m'. unfold somes. cbn [map concat]. destruct o; reflexivity.
Qed.
Lemma p3_aggregate_spec len outs : Forall (fun o => length o = len) outs ->
  exists agg, p3_aggregate len outs = Some agg /\ length agg = len /\ forall j, j < len -> nth j agg (of_Z 0) = fsum (map (fun o => nth j o (of_Z 0)) outs).
Proof.
  intros H. unfold p3_aggregate.
  assert (Hg : forall outs acc, Forall (fun o => length o = len) outs -> length acc = len -> exists agg, fold_left (fun acc o => match acc with Some a => if length o =? length a then Some (vec_add a o) else None | None => None end) outs (Some acc) = Some agg /\
    length agg = len /\ forall j, j < len -> nth j agg (of_Z 0) = fadd (nth j acc (of_Z 0)) (fsum (map (fun o => nth j o (of_Z 0)) outs))).
  { clear. induction outs as [|o outs IH]; intros acc H Ha; cbn [fold_left].
    - exists acc. split; [reflexivity|]. split; [exact Ha|]. intros j _. cbn. change (of_Z 0) with fzero. ring.
    - apply Forall_cons_iff in H. destruct H as [Ho Hos]. rewrite Ho, Ha, Nat.eqb_refl. destruct (IH (vec_add acc o) Hos) as (agg & H1 & H2 & H3); [rewrite vec_add_length; exact Ha|].
      exists agg. split; [exact H1|]. split; [exact H2|]. intros j Hj. rewrite H3, vec_add_nth_def by lia. cbn [map fsum]. ring. }
  destruct (Hg outs (zeros len) H) as (agg & H1 & H2 & H3); [apply repeat_length|]. exists agg. split; [exact H1|]. split; [exact H2|]. intros j Hj. rewrite H3 by exact Hj.
  unfold zeros. change (of_N 0) with (of_Z 0). rewrite nth_repeat. change (of_Z 0) with fzero. ring.
Qed.

Lemma forall2_build {A B} (R : nat -> A -> B -> Prop) (l : list A) : (forall i a, nth_error l i = Some a -> exists b, R i a b) ->
  exists l', length l' = length l /\ forall i a b, nth_error l i = Some a -> nth_error l' i = Some b -> R i a b.
Proof.
  revert R. induction l as [|a l IH]; intros R H; [exists []; split; [reflexivity|intros [|i] ? ? ?; discriminate]|].
  destruct (H 0 a eq_refl) as [b Hb]. destruct (IH (fun i => R (S i))) as (l' & Hl & H'); [intros i x Hx; apply (H (S i)); exact Hx|].
  exists (b :: l'). split; [cbn; lia|]. intros [|i] x y Hx Hy; cbn in *; [congruence|eauto].
Qed.

Lemma pm_validate_run E c sid a (sts : list (bytes * bytes)) : hist_ok (c_len c) = true -> (0 <= sid)%Z ->
  (forall k st sh, nth_error sts k = Some (st, sh) -> exists h nonce pub inp, nth_error (c_reports c) (a + k) = Some (h, RSPrio3 nonce pub inp) /\
     p3_prep_init E (c_len c) (c_vk c) (Z.to_nat sid) nonce pub inp = Some (st, sh)) ->
  exists c', pm_validate E c sid a (a + length sts) = Ret (c', map snd sts) /\ c_len c' = c_len c /\
    forall k st sh, nth_error sts k = Some (st, sh) -> m_get (c_pm c') (a + k) = Some (st, sh).
Proof.
  intros Hh Hs H. unfold pm_validate. rewrite (proj2 (Nat.ltb_ge _ _)) by lia. rewrite (proj2 (Z.ltb_ge _ _)) by exact Hs. rewrite Hh. cbn [negb].
  replace (a + length sts - a) with (length sts) by lia.
  assert (Hm : mapM (pm_validate_one E c (Z.to_nat sid)) (seq a (length sts)) = Ret (combine (seq a (length sts)) sts)).
  { clear -H. revert a H. induction sts as [|[st sh] sts IH]; intros a H; cbn [length seq mapM combine]; [reflexivity|].
    destruct (H 0 st sh eq_refl) as (h & nonce & pub & inp & Hn & Hi). rewrite Nat.add_0_r in Hn. unfold pm_validate_one. rewrite (index_some _ _ _ Hn). cbn [bind snd]. rewrite Hi. cbn [unwrap bind].
    change (mapM _ (seq (S a) (length sts))) with (mapM (pm_validate_one E c (Z.to_nat sid)) (seq (S a) (length sts))). rewrite IH; [reflexivity|].
    intros k st' sh' Hk. replace (S a + k) with (a + S k) by lia. apply H. exact Hk. }
  rewrite Hm. cbn [bind]. eexists. split; [|split].
  - f_equal. f_equal. rewrite <- (map_map snd snd). rewrite map_snd_combine by apply seq_length. reflexivity.
  - reflexivity.
  - intros k st sh Hk. cbn [set_pm c_pm]. apply fold_insert_in.
    + rewrite map_fst_combine by apply seq_length. apply seq_NoDup.
    + apply nth_error_In with (n := k). rewrite nth_error_combine, nth_error_seq by (apply nth_error_Some; congruence). rewrite Hk. reflexivity.
Qed.

Lemma somes_length {A} (l : list (option A)) : length (somes l) + length (filter (fun o => match o with None => true | Some _ => false end) l) = length l.
Proof. unfold somes. induction l as [|[a|] l IH]; cbn [map concat app length filter] in *; lia. Qed.
Lemma somes_nth_rel {A B} (R : A -> B -> Prop) (l : list (option A)) : forall (l' : list (option B)),
  Forall2 (fun x y => match x, y with Some a, Some b => R a b | None, None => True | _, _ => False end) l l' -> Forall2 R (somes l) (somes l').
Proof. induction l as [|x l IH]; intros l' H; inversion H as [|? y ? l2 Hxy Hr]; subst; [constructor|]. destruct x, y; try contradiction; cbn; [constructor; [exact Hxy|]|]; apply IH; exact Hr. Qed.

Lemma pm_batch_run E cfg vk s0 s1 a rs : hist_ok (cfg_hist cfg) = true -> rs <> [] -> (Z.of_nat (a + length rs) < 2 ^ 64)%Z ->
  prio_pair E (cfg_hist cfg) vk s0 s1 a rs ->
  exists t0 t1 hist rej, pm_batch E cfg s0 s1 a (a + length rs) = Ret (t0, t1, (hist, rej)) /\
    length hist = cfg_hist cfg /\
    (forall j, j < cfg_hist cfg -> nth j hist 0%Z = fval (fsum (map (fun beta => nth j beta (of_Z 0)) (somes rs)))) /\
    rej = Z.of_nat (length (filter (fun o => match o with None => true | Some _ => false end) rs)).
Proof.
  intros Hh Hne Hbig (P0 & P1 & I0 & I1 & L0 & L1 & V0 & V1 & Hrs). set (len := cfg_hist cfg) in *.
  assert (Hlt : a < a + length rs) by (destruct rs; [contradiction|cbn; lia]).
  (* the preparation states of both sides *)
  destruct (forall2_build (fun k (res : option (list fld)) (x : (bytes * bytes) * (bytes * bytes) * (option (list fld) * option (list fld))) =>
     let '((st0, sh0), (st1, sh1), (o0, o1)) := x in
     (exists h nonce pub inp, nth_error (c_reports (s_coll s0)) (a + k) = Some (h, RSPrio3 nonce pub inp) /\ p3_prep_init E len vk 0 nonce pub inp = Some (st0, sh0)) /\
     (exists h nonce pub inp, nth_error (c_reports (s_coll s1)) (a + k) = Some (h, RSPrio3 nonce pub inp) /\ p3_prep_init E len vk 1 nonce pub inp = Some (st1, sh1)) /\
     pm_ok1 E len 0 st0 sh0 sh1 o0 /\ pm_ok1 E len 1 st1 sh1 sh0 o1 /\
     match res, o0, o1 with
     | None, None, None => True
     | Some beta, Some p, Some q => length p = len /\ length q = len /\ forall j, j < len -> fadd (nth j p (of_Z 0)) (nth j q (of_Z 0)) = nth j beta (of_Z 0)
     | _, _, _ => False end) rs) as (xs & Hxl & Hxs).
  { intros k res Hk. destruct (Hrs k res Hk) as (h0 & r0 & h1 & r1 & Hr0 & Hr1 & nonce & pub & i0 & nonce' & pub' & i1 & st0 & sh0 & st1 & sh1 & -> & -> & Hi0 & Hi1 & Hd0 & Hd1 & Hres).
    destruct res as [beta|].
    - destruct Hres as (m & o0 & o1 & Hm & Hn0 & Hn1 & Ho0 & Ho1 & _ & Hsum). exists ((st0, sh0), (st1, sh1), (Some o0, Some o1)).
      split; [eauto 8|]. split; [eauto 8|]. unfold pm_ok1. cbn. split; [eauto|]. split; [eauto|]. auto.
    - exists ((st0, sh0), (st1, sh1), (None, None)). split; [eauto 8|]. split; [eauto 8|]. unfold pm_ok1. cbn.
      destruct Hres as [Hm|(m & Hm & Hn0 & Hn1)]; (split; [split; [assumption|eauto]|]); (split; [split; [assumption|eauto]|exact I]). }
  set (sts0 := map (fun x => fst (fst x)) xs). set (sts1 := map (fun x => snd (fst x)) xs).
  set (os0 := map (fun x => fst (snd x)) xs). set (os1 := map (fun x => snd (snd x)) xs).
  assert (Hat : forall k x, nth_error xs k = Some x -> exists res, nth_error rs k = Some res).
  { intros k x Hk. destruct (nth_error rs k) eqn:Hr; [eauto|]. apply nth_error_None in Hr. assert (k < length xs) by (apply nth_error_Some; congruence). lia. }
  assert (HL0 : length sts0 = length rs) by (unfold sts0; rewrite map_length; exact Hxl).
  assert (HL1 : length sts1 = length rs) by (unfold sts1; rewrite map_length; exact Hxl).
  assert (HO0 : length os0 = length rs) by (unfold os0; rewrite map_length; exact Hxl).
  assert (HO1 : length os1 = length rs) by (unfold os1; rewrite map_length; exact Hxl).
  (* validation *)
  destruct (pm_validate_run E (s_coll s0) (s_id s0) a sts0) as (c0 & Hv0 & Hlen0 & Hg0).
  { rewrite L0. exact Hh. } { rewrite I0. lia. }
  { intros k st sh Hk. unfold sts0 in Hk. rewrite nth_error_map' in Hk. destruct (nth_error xs k) as [[[[st0 sh0] [st1 sh1]] [o0 o1]]|] eqn:Hx; [|discriminate]. cbn in Hk. injection Hk as <- <-.
    destruct (Hat _ _ Hx) as [res Hr]. pose proof (Hxs k res _ Hr Hx) as (HA & _). rewrite I0, L0, V0. exact HA. }
  destruct (pm_validate_run E (s_coll s1) (s_id s1) a sts1) as (c1 & Hv1 & Hlen1 & Hg1).
  { rewrite L1. exact Hh. } { rewrite I1. lia. }
  { intros k st sh Hk. unfold sts1 in Hk. rewrite nth_error_map' in Hk. destruct (nth_error xs k) as [[[[st0 sh0] [st1 sh1]] [o0 o1]]|] eqn:Hx; [|discriminate]. cbn in Hk. injection Hk as <- <-.
    destruct (Hat _ _ Hx) as [res Hr]. pose proof (Hxs k res _ Hr Hx) as (_ & HA & _). rewrite I1, L1, V1. exact HA. }
  rewrite HL0 in Hv0. rewrite HL1 in Hv1.
  (* results *)
  destruct (pm_loop_run E len 0 sts0 (map snd sts1) os0 a (c_pm c0)) as [m0 Hm0].
  { rewrite map_length. lia. } { lia. } { exact Hg0. }
  { intros k st sh peer o H1 H2 H3. unfold sts0, sts1, os0 in *. rewrite !nth_error_map' in *. destruct (nth_error xs k) as [[[[st0 sh0] [st1 sh1]] [o0 o1]]|] eqn:Hx; [|discriminate]. cbn in *.
    destruct (Hat _ _ Hx) as [res Hr]. pose proof (Hxs k res _ Hr Hx) as (_ & _ & HA & _). congruence. }
  destruct (pm_loop_run E len 1 sts1 (map snd sts0) os1 a (c_pm c1)) as [m1 Hm1].
  { rewrite map_length. lia. } { lia. } { exact Hg1. }
  { intros k st sh peer o H1 H2 H3. unfold sts0, sts1, os1 in *. rewrite !nth_error_map' in *. destruct (nth_error xs k) as [[[[st0 sh0] [st1 sh1]] [o0 o1]]|] eqn:Hx; [|discriminate]. cbn in *.
    destruct (Hat _ _ Hx) as [res Hr]. pose proof (Hxs k res _ Hr Hx) as (_ & _ & _ & HA & _). congruence. }
  rewrite HL0 in Hm0. rewrite HL1 in Hm1.
  (* relation between the outputs *)
  assert (Hrel : Forall2 (fun (x : option (list fld)) (y : option (list fld * list fld)) => match x, y with Some beta, Some (p, q) => length p = len /\ length q = len /\ forall j, j < len -> fadd (nth j p (of_Z 0)) (nth j q (of_Z 0)) = nth j beta (of_Z 0) | None, None => True | _, _ => False end)
     rs (map (fun x => match snd x with (Some p, Some q) => Some (p, q) | _ => None end) xs)).
  { clear -Hxl Hxs. revert xs Hxl Hxs. generalize a. induction rs as [|r rs IH]; intros a' xs Hl Hxs; destruct xs as [|x xs]; try discriminate; [constructor|]. constructor.
    - specialize (Hxs 0 r x eq_refl eq_refl). destruct x as [[[st0 sh0] [st1 sh1]] [o0 o1]]. destruct Hxs as (_ & _ & _ & _ & Hx). cbn. destruct r, o0, o1; try contradiction; exact Hx.
    - apply (IH (S a')); [cbn in Hl; lia|]. intros i ra xb Hi Hb. specialize (Hxs (S i) ra xb Hi Hb). replace (S a' + i) with (a' + S i) by lia. exact Hxs. }
  set (pq := map (fun x : (bytes * bytes) * (bytes * bytes) * (option (list fld) * option (list fld)) => match snd x with (Some p, Some q) => Some (p, q) | _ => None end) xs) in *.
  assert (Hsp : somes os0 = map fst (somes pq) /\ somes os1 = map snd (somes pq)).
  { unfold os0, os1, pq. clear -Hxl Hxs. revert xs Hxl Hxs. generalize a. induction rs as [|r rs IH]; intros a' xs Hl Hxs; destruct xs as [|x xs]; try discriminate; [split; reflexivity|].
    destruct (IH (S a') xs) as [IH1 IH2]; [cbn in Hl; lia| |].
    { intros i ra xb Hi Hb. specialize (Hxs (S i) ra xb Hi Hb). replace (S a' + i) with (a' + S i) by lia. exact Hxs. }
    specialize (Hxs 0 r x eq_refl eq_refl). destruct x as [[[st0 sh0] [st1 sh1]] [o0 o1]]. destruct Hxs as (_ & _ & _ & _ & Hx). unfold somes in *. cbn.
    destruct r, o0, o1; try contradiction; cbn; rewrite IH1, IH2; split; reflexivity. }
  destruct Hsp as [Hsp0 Hsp1].
  pose proof (somes_nth_rel (fun beta (pq : list fld * list fld) => length (fst pq) = len /\ length (snd pq) = len /\ forall j, j < len -> fadd (nth j (fst pq) (of_Z 0)) (nth j (snd pq) (of_Z 0)) = nth j beta (of_Z 0)) rs pq) as Hf2.
  assert (Hf3 : Forall2 (fun beta (pq : list fld * list fld) => length (fst pq) = len /\ length (snd pq) = len /\ forall j, j < len -> fadd (nth j (fst pq) (of_Z 0)) (nth j (snd pq) (of_Z 0)) = nth j beta (of_Z 0)) (somes rs) (somes pq)).
  { apply Hf2. clear -Hrel. induction Hrel as [|x y l l' Hxy H IH]; constructor; [|exact IH]. destruct x, y as [[p q]|]; exact Hxy. }
  clear Hf2 Hrel.
  destruct (p3_aggregate_spec len (somes os0)) as (g0 & Hg0a & Hg0l & Hg0n).
  { rewrite Hsp0. clear -Hf3. induction Hf3 as [|x y l l' (H1 & _) H IH]; constructor; [exact H1|exact IH]. }
  destruct (p3_aggregate_spec len (somes os1)) as (g1 & Hg1a & Hg1l & Hg1n).
  { rewrite Hsp1. clear -Hf3. induction Hf3 as [|x y l l' (_ & H1 & _) H IH]; constructor; [exact H1|exact IH]. }
  destruct (p3_aggregate_spec len [g0; g1]) as (g & Hga & Hgl & Hgn).
  { repeat constructor; assumption. }
  assert (Hlo : length (somes os0) = length (somes rs) /\ length (somes os1) = length (somes rs)).
  { rewrite Hsp0, Hsp1, !map_length. rewrite (Forall2_len _ _ _ Hf3). auto. }
  destruct Hlo as [Hlo0 Hlo1].
  set (rej := Z.of_nat (length (filter (fun o : option (list fld) => match o with None => true | Some _ => false end) rs))).
  assert (Hrej : forall k, k = length (somes rs) -> ((Z.of_nat (a + length rs) - Z.of_nat a - Z.of_nat k) mod 2 ^ 64)%Z = rej).
  { intros k ->. pose proof (somes_length rs) as Hsl. unfold rej. rewrite Z.mod_small; lia. }
  assert (Hd1 : forall s p, s_poison s = false -> forall cc r, body E s p = Ret (cc, r) -> prelock E p = Ret tt -> handle E s p = (set_coll s cc, Ret r)).
  { intros s p Hp cc r Hb Hpl. apply handle_ret. eauto 8. }
  exists (set_coll (set_coll s0 c0) (set_pm c0 m0)), (set_coll (set_coll s1 c1) (set_pm c1 m1)), (map fval g), rej.
  split; [|split; [rewrite map_length; exact Hgl|split; [|reflexivity]]].
  - unfold pm_batch.
    rewrite (proj2 (call2_ret E s0 s1 _ _ (set_coll s0 c0) (set_coll s1 c1) (APm (map snd sts0)) (APm (map snd sts1)))).
    2:{ split; apply Hd1; cbn [body prelock]; try assumption; try (rewrite Hv0; reflexivity); try (rewrite Hv1; reflexivity); apply debug_assert_true, Nat.ltb_lt; exact Hlt. }
    cbn [bind]. rewrite !map_length. replace (a + length rs - a) with (length rs) by lia. rewrite HL0, HL1, Nat.eqb_refl. cbn [assert_ bind].
    rewrite (proj2 (call2_ret E _ _ _ _ (set_coll (set_coll s0 c0) (set_pm c0 m0)) (set_coll (set_coll s1 c1) (set_pm c1 m1)) (APmResult g0 rej) (APmResult g1 rej))).
    2:{ split; apply Hd1; cbn [body prelock set_coll s_poison s_coll s_id]; try assumption; try (apply debug_assert_true, Nat.ltb_lt; exact Hlt); unfold pm_result;
        rewrite ?Hlen0, ?Hlen1, ?L0, ?L1, ?Hh, ?I0, ?I1; cbn [negb]; replace (a + length rs - a) with (length rs) by lia; rewrite ?Hm0, ?Hm1; cbn [bind];
        rewrite ?Hg0a, ?Hg1a; cbn [unwrap bind]; rewrite Hrej by lia; reflexivity. }
    cbn [bind]. rewrite Z.eqb_refl. cbn [assert_ bind]. rewrite count_fine by (unfold rej; pose proof (somes_length rs); lia). cbn [bind]. unfold p3_unshard. fold len. rewrite Hga. reflexivity.
  - intros j Hj. rewrite (nth_indep _ 0%Z (fval (of_Z 0))) by (rewrite map_length; lia). rewrite map_nth. f_equal. rewrite Hgn by exact Hj. cbn [map fsum].
    rewrite Hg0n, Hg1n by exact Hj. rewrite Hsp0, Hsp1, !map_map. clear -Hf3 Hj. induction Hf3 as [|x y l l' (_ & _ & H1) H IH]; cbn [map fsum]; [change (of_Z 0) with fzero; ring|].
    rewrite <- H1 by exact Hj. rewrite <- IH. change (of_Z 0) with fzero. ring.
Qed.
