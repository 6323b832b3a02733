(** Complete runs of attribute-based metrics: arbitrary reports. *)
From Verif Require Import Base BaseFacts Field Util UtilFacts Env Prg Vidpf SpecVidpf SpecTree VidpfFacts
  Merkle Collect Server Driver Modes SpecCollect SpecServer SpecDriver SpecMetrics SpecCheck SpecLevel SpecWhh SpecModes
  CollectFacts CollectInv ServerFacts DriverFacts MetricsFacts PmFacts LevelFacts WhhFacts.

(** *** lists with their positions *)
Definition tagged {A} (s : nat) (l : list A) : list (nat * A) := combine (seq s (length l)) l.
Lemma tagged_cons {A} s (x : A) l : tagged s (x :: l) = (s, x) :: tagged (S s) l.  Proof. reflexivity. Qed.
Lemma tagged_app {A} (a : list A) : forall s b, tagged s (a ++ b) = tagged s a ++ tagged (s + length a) b.
Proof.
  induction a as [|x a IH]; intros s b; cbn [app length]; [rewrite Nat.add_0_r; reflexivity|].
  rewrite !tagged_cons, IH. cbn [app]. do 2 f_equal. f_equal. lia.
Qed.
Lemma tagged_in {A} s (l : list A) i x : In (i, x) (tagged s l) -> s <= i < s + length l.
Proof. intros H. apply in_combine_l in H. apply in_seq in H. exact H. Qed.
Lemma tagged_fst {A} s (l : list A) : map fst (tagged s l) = seq s (length l).
Proof. apply map_fst_combine. apply seq_length. Qed.
Lemma tagged_snd {A} s (l : list A) : map snd (tagged s l) = l.
Proof. apply map_snd_combine. apply seq_length. Qed.
Lemma tagged_filter_snd {A} (f : A -> bool) : forall l s, map snd (filter (fun ix => f (snd ix)) (tagged s l)) = filter f l.
Proof. induction l as [|x l IH]; intros s; [reflexivity|]. rewrite tagged_cons. cbn [filter snd]. destruct (f x); cbn [map snd]; rewrite IH; reflexivity. Qed.

Lemma sum_onto_eq a b : vec_add a b = sum_onto a b.
Proof. unfold sum_onto. apply nth_seq_map with (d := of_Z 0); [|apply vec_add_length]. intros j Hj. apply vec_add_nth_def. exact Hj. Qed.

Lemma table_exact len n vs agg : is_table len n vs agg -> agg = map (fun a => map (fun j => total a j vs) (seq 0 len)) (seq 0 n).
Proof.
  intros [Hl H]. apply nth_seq_map with (d := []); [|exact Hl]. intros a Ha. destruct (H a Ha) as [H1 H2].
  apply nth_seq_map with (d := of_Z 0); [exact H2|exact H1].
Qed.

Section Abm.
Variables (E : env) (cfg : config) (len : nat) (vk : bytes) (attrs : list (list bool)).
Hypothesis Hlen : cfg_hist cfg = len.

(** one aggregator with the first rows done *)
Definition side (first : bool) (rs : list report_share) (vals : row -> list (list fld)) (doneRows : list row) (s : server) : Prop :=
  s_poison s = false /\ (c_sid (s_coll s) =? 0)%Z = first /\ c_len (s_coll s) = len /\ c_vk (s_coll s) = vk /\
  map snd (c_reports (s_coll s)) = rs /\
  c_abm (s_coll s) = rev (map (fun iw => (fst iw, vals (snd iw))) (filter (fun iw => kept (dbg E) (snd iw)) (tagged 0 doneRows))).

Lemma validate_one first c i r vals ver h : (c_sid c =? 0)%Z = first -> c_len c = len -> c_vk c = vk ->
  nth_error (map snd (c_reports c)) i = Some r -> tree_share E first len vk attrs r = Some (vals, ver, h) ->
  abm_validate_one E c attrs i = Ret (i, vals, ver, h).
Proof.
  intros Hs Hl Hv Hr Ht. rewrite nth_error_map' in Hr. destruct (nth_error (c_reports c) i) as [[f r']|] eqn:Hi; [|discriminate]. cbn in Hr. injection Hr as ->.
  unfold abm_validate_one. rewrite (index_some _ _ _ Hi). cbn [bind snd]. destruct r as [nonce k proof jr|]; [|discriminate]. cbn [unwrap_vidpf_key bind tree_share] in *.
  rewrite Hl. destruct (eval_tree E k attrs len []) as [[[vs beta] tr]|]; [|discriminate]. cbn [bind].
  unfold flp_joint_rand, flp_query_rand. rewrite (index_some _ _ _ Hi). cbn [bind snd unwrap_flp_proof_share unwrap_flp_joint_rand_parts unwrap_vidpf_key rs_nonce].
  rewrite Hl, Hv. unfold joint_rand, jr_part, query_rand in Ht. rewrite Hs.
  destruct first; cbn [bind]; match type of Ht with match ?q with _ => _ end = _ => destruct q as [w|] eqn:Hq end; try discriminate; injection Ht as -> -> ->; cbn [bind]; reflexivity.
Qed.

(** the answers of both aggregators for a list of reports *)
Definition answers (first : bool) (rs : list report_share) (l : list (list (list fld) * list fld * bytes)) : Prop :=
  Forall2 (fun r x => tree_share E first len vk attrs r = Some x) rs l.

Lemma validate_many first c l : forall rs a, (c_sid c =? 0)%Z = first -> c_len c = len -> c_vk c = vk ->
  (forall k r, nth_error rs k = Some r -> nth_error (map snd (c_reports c)) (a + k) = Some r) -> answers first rs l ->
  mapM (abm_validate_one E c attrs) (seq a (length l)) = Ret (map (fun ix => (fst ix, fst (fst (snd ix)), snd (fst (snd ix)), snd (snd ix))) (tagged a l)).
Proof.
  induction l as [|[[v w] h] l IH]; intros rs a Hs Hl Hv Hr Ha; [reflexivity|]. inversion Ha as [|r x rs' l' Hx Hrest]; subst.
  cbn [length seq mapM]. rewrite (validate_one (c_sid c =? 0)%Z c a r v w h) by (try assumption; try reflexivity; specialize (Hr 0 r eq_refl); rewrite Nat.add_0_r in Hr; exact Hr). cbn [bind].
  rewrite (IH rs' (S a)) by (try assumption; try reflexivity; intros k r' Hk; replace (S a + k) with (a + S k) by lia; apply Hr; exact Hk).
  reflexivity.
Qed.

Lemma without_all {V} (keys : list nat) (m : list (nat * V)) : (forall k v, In (k, v) m -> ~ In k keys) -> without keys m = m.
Proof.
  intros H. unfold without. induction m as [|[k v] m IH]; [reflexivity|]. cbn [filter fst].
  destruct (existsb (Nat.eqb k) keys) eqn:He.
  - apply existsb_exists in He. destruct He as (x & Hx & He). apply Nat.eqb_eq in He. subst x. exfalso. apply (H k v); [left; reflexivity|exact Hx].
  - cbn [negb]. f_equal. apply IH. intros k' v' Hin. apply (H k' v'). right. exact Hin.
Qed.

Lemma done_keys (vals : row -> list (list fld)) (doneRows : list row) k v :
  In (k, v) (rev (map (fun iw : nat * row => (fst iw, vals (snd iw))) (filter (fun iw => kept (dbg E) (snd iw)) (tagged 0 doneRows)))) -> k < length doneRows.
Proof.
  intros H. apply in_rev, in_map_iff in H. destruct H as ([i w] & Hk & H). injection Hk as <- _. apply filter_In in H. destruct H as [H _]. apply tagged_in in H. lia.
Qed.

Lemma validate_batch first rs vals doneRows s rsb l :
  side first rs vals doneRows s -> (forall k r, nth_error rsb k = Some r -> nth_error rs (length doneRows + k) = Some r) -> answers first rsb l ->
  abm_validate E (s_coll s) attrs (length doneRows) (length doneRows + length l) =
  Ret (set_abm (s_coll s) (rev (map (fun ix => (fst ix, fst (fst (snd ix)))) (tagged (length doneRows) l)) ++ c_abm (s_coll s)),
       map (fun x => (snd (fst x), snd x)) l).
Proof.
  intros (_ & Hs & Hl & Hv & Hr & Ha) Hrs Hans. unfold abm_validate. rewrite (proj2 (Nat.ltb_ge _ _)) by lia.
  replace (length doneRows + length l - length doneRows) with (length l) by lia.
  rewrite (validate_many first (s_coll s) l rsb) by (try assumption; rewrite Hr; exact Hrs). cbn [bind].
  assert (Hk : map (fun r : nat * list (list fld) * list fld * bytes => let '(i, _, _, _) := r in i)
     (map (fun ix : nat * (list (list fld) * list fld * bytes) => (fst ix, fst (fst (snd ix)), snd (fst (snd ix)), snd (snd ix))) (tagged (length doneRows) l)) = seq (length doneRows) (length l)).
  { rewrite map_map. rewrite <- tagged_fst. apply map_ext. intros [i [[v w] h]]. reflexivity. }
  rewrite insert_all_spec by (rewrite Hk; apply seq_NoDup). rewrite Hk.
  rewrite (without_all _ (c_abm (s_coll s))).
  2:{ intros k v Hin Hc. rewrite Ha in Hin. apply done_keys in Hin. apply in_seq in Hc. lia. }
  f_equal. f_equal.
  - do 3 f_equal. rewrite map_map. apply map_ext. intros [i [[v w] h]]. reflexivity.
  - rewrite map_map. rewrite <- (tagged_snd (length doneRows) l) at 2. rewrite map_map. apply map_ext. intros [i [[v w] h]]. reflexivity.
Qed.

(** the rows of a batch, with the answers that make them up *)
Definition made (l0 l1 : list (list (list fld) * list fld * bytes)) (ws : list row) : Prop :=
  Forall2 (fun xy w => w_vals0 w = fst (fst (fst xy)) /\ w_vals1 w = fst (fst (snd xy)) /\
     flp_decide E len (sum_onto (snd (fst (fst xy))) (snd (fst (snd xy)))) = Some (w_fit w) /\ (w_agree w = true <-> snd (fst xy) = snd (snd xy))) (combine l0 l1) ws.

Definition marks (iw : nat * row) : list nat := (if w_fit (snd iw) then [] else [fst iw]) ++ (if w_agree (snd iw) then [] else [fst iw]).
Lemma rejected_rows l0 : forall l1 ws a, length l0 = length l1 -> made l0 l1 ws ->
  abm_rejected E len a (combine (map (fun x => (snd (fst x), snd x)) l0) (map (fun x => (snd (fst x), snd x)) l1)) = Ret (flat_map marks (tagged a ws)).
Proof.
  induction l0 as [|[[v0 p0] h0] l0 IH]; intros [|[[v1 p1] h1] l1] ws a Hl Hm; try discriminate; unfold made in Hm; cbn [combine] in Hm; inversion Hm as [|x w xs ws' Hx Hrest]; subst; [reflexivity|].
  cbn [fst snd] in Hx. destruct Hx as (_ & _ & Hd & Hs). cbn [map combine abm_rejected fst snd]. rewrite sum_onto_eq, Hd. cbn [unwrap bind].
  rewrite (IH l1 ws' (S a)) by (try exact Hrest; cbn in Hl; lia). cbn [bind]. rewrite tagged_cons. cbn [flat_map]. unfold marks at 2. cbn [fst snd]. rewrite <- app_assoc.
  f_equal. f_equal. replace (bytes_eqb h0 h1) with (w_agree w); [reflexivity|].
  destruct (bytes_eqb h0 h1) eqn:He; [apply Hs, bytes_eqb_eq; exact He|]. destruct (w_agree w); [|reflexivity]. exfalso.
  rewrite (proj1 Hs eq_refl) in He. assert (bytes_eqb h1 h1 = true) by (apply bytes_eqb_eq; reflexivity). congruence.
Qed.

Definition twice (w : row) : bool := negb (w_fit w) && negb (w_agree w).
Lemma marks_nodup ws : forall a, existsb twice ws = false -> NoDup (flat_map marks (tagged a ws)).
Proof.
  induction ws as [|w ws IH]; intros a H; [constructor|]. cbn [existsb] in H. apply orb_false_iff in H. destruct H as [H1 H2].
  rewrite tagged_cons. cbn [flat_map].
  assert (Hn : ~ In a (flat_map marks (tagged (S a) ws))).
  { intros Hin. apply in_flat_map in Hin. destruct Hin as ([i w'] & Hin & Hm). apply tagged_in in Hin. unfold marks in Hm. cbn [fst snd] in Hm. apply in_app_iff in Hm. destruct Hm as [Hm|Hm]; [destruct (w_fit w')|destruct (w_agree w')]; destruct Hm as [<-|[]] || destruct Hm; lia. }
  unfold twice in H1. unfold marks at 1. cbn [fst snd]. destruct (w_fit w), (w_agree w); try discriminate; cbn [app]; try (apply IH; exact H2); (constructor; [exact Hn|apply IH; exact H2]).
Qed.
Lemma marks_twice ws : forall a, existsb twice ws = true -> ~ NoDup (flat_map marks (tagged a ws)).
Proof.
  induction ws as [|w ws IH]; intros a H Hn; [discriminate|]. cbn [existsb] in H. rewrite tagged_cons in Hn. cbn [flat_map] in Hn.
  apply orb_true_iff in H. destruct H as [H|H].
  - unfold twice in H. unfold marks in Hn at 1. cbn [fst snd] in Hn. destruct (w_fit w), (w_agree w); try discriminate. cbn [app] in Hn. inversion Hn as [|? ? Hi _]; subst. apply Hi. left. reflexivity.
  - apply (IH (S a) H). clear -Hn. induction (marks (a, w)) as [|x m IHm]; [exact Hn|]. cbn in Hn. inversion Hn. auto.
Qed.
Lemma marks_in ws a i : In i (flat_map marks (tagged a ws)) <-> exists w, In (i, w) (tagged a ws) /\ (w_fit w && w_agree w) = false.
Proof.
  rewrite in_flat_map. split.
  - intros ([j w] & Hin & Hm). unfold marks in Hm. cbn [fst snd] in Hm. apply in_app_iff in Hm.
    assert (j = i) by (destruct Hm as [Hm|Hm]; [destruct (w_fit w)|destruct (w_agree w)]; destruct Hm as [<-|[]] || destruct Hm; reflexivity). subst j.
    exists w. split; [exact Hin|]. destruct (w_fit w), (w_agree w); cbn in Hm; try reflexivity. destruct Hm as [[]|[]].
  - intros (w & Hin & Hf). exists (i, w). split; [exact Hin|]. unfold marks. cbn [fst snd]. destruct (w_fit w), (w_agree w); try discriminate; cbn; auto.
Qed.
Lemma tagged_fun {A} (l : list A) s i x y : In (i, x) (tagged s l) -> In (i, y) (tagged s l) -> x = y.
Proof.
  revert s. induction l as [|z l IH]; intros s H1 H2; [destruct H1|]. rewrite tagged_cons in *. destruct H1 as [H1|H1], H2 as [H2|H2]; try congruence.
  - injection H1 as <- <-. apply tagged_in in H2. lia.
  - injection H2 as <- <-. apply tagged_in in H1. lia.
  - eapply IH; eassumption.
Qed.
Lemma without_marks (vals : row -> list (list fld)) ws a : dbg E = true ->
  without (flat_map marks (tagged a ws)) (rev (map (fun iw => (fst iw, vals (snd iw))) (tagged a ws))) =
  rev (map (fun iw => (fst iw, vals (snd iw))) (filter (fun iw => kept (dbg E) (snd iw)) (tagged a ws))).
Proof.
  intros Hd.
  assert (Hf : forall m : list (nat * row), incl m (tagged a ws) ->
     filter (fun kv : nat * list (list fld) => negb (existsb (Nat.eqb (fst kv)) (flat_map marks (tagged a ws)))) (map (fun iw => (fst iw, vals (snd iw))) m) =
     map (fun iw => (fst iw, vals (snd iw))) (filter (fun iw => kept (dbg E) (snd iw)) m)).
  { induction m as [|[i w] m IH]; intros Hi; [reflexivity|]. cbn [map filter fst snd].
    rewrite (IH (fun x Hx => Hi x (or_intror Hx))).
    replace (negb (existsb (Nat.eqb i) (flat_map marks (tagged a ws)))) with (kept (dbg E) w); [destruct (kept (dbg E) w); reflexivity|].
    unfold kept. rewrite Hd. cbn [negb orb]. pose proof (Hi (i, w) (or_introl eq_refl)) as Hin.
    destruct (existsb (Nat.eqb i) (flat_map marks (tagged a ws))) eqn:He.
    - apply existsb_exists in He. destruct He as (x & Hx & He). apply Nat.eqb_eq in He. subst x. apply marks_in in Hx. destruct Hx as (w' & Hw' & Hb).
      rewrite (tagged_fun _ _ _ _ _ Hin Hw'). exact Hb.
    - destruct (w_fit w && w_agree w) eqn:Hb; [reflexivity|]. exfalso. assert (Hx : In i (flat_map marks (tagged a ws))) by (apply marks_in; eauto).
      assert (existsb (Nat.eqb i) (flat_map marks (tagged a ws)) = true) by (apply existsb_exists; exists i; split; [exact Hx|apply Nat.eqb_refl]). congruence. }
  unfold without. rewrite <- !map_rev. 
  assert (Hrev : forall m : list (nat * row), incl m (tagged a ws) -> incl (rev m) (tagged a ws)) by (intros m Hm x Hx; apply Hm, in_rev; exact Hx).
  rewrite Hf by (apply Hrev; intros x Hx; exact Hx).
  f_equal. clear. induction (tagged a ws) as [|x m IH]; [reflexivity|]. cbn [rev filter]. rewrite filter_app, IH. cbn [filter]. destruct (kept (dbg E) (snd x)); cbn [rev]; [reflexivity|rewrite app_nil_r; reflexivity].
Qed.
Lemma kept_release (ws : list row) : dbg E = false -> forall a, filter (fun iw : nat * row => kept (dbg E) (snd iw)) (tagged a ws) = tagged a ws.
Proof. intros Hd. induction ws as [|w ws IH]; intros a; [reflexivity|]. rewrite tagged_cons. cbn [filter snd]. unfold kept at 1. rewrite Hd at 1. cbn. rewrite IH. reflexivity. Qed.

Lemma done_app (vals : row -> list (list fld)) (ws1 ws2 : list row) :
  rev (map (fun iw => (fst iw, vals (snd iw))) (filter (fun iw => kept (dbg E) (snd iw)) (tagged 0 (ws1 ++ ws2)))) =
  rev (map (fun iw => (fst iw, vals (snd iw))) (filter (fun iw => kept (dbg E) (snd iw)) (tagged (length ws1) ws2))) ++
  rev (map (fun iw => (fst iw, vals (snd iw))) (filter (fun iw => kept (dbg E) (snd iw)) (tagged 0 ws1))).
Proof. rewrite tagged_app, filter_app, map_app, rev_app_distr. reflexivity. Qed.

Lemma without_app {V} keys (a b : list (nat * V)) : without keys (a ++ b) = without keys a ++ without keys b.
Proof. apply filter_app. Qed.

(** the second request of a batch, one aggregator *)
Lemma result_batch (vals : row -> list (list fld)) doneRows ws c m n :
  c_len c = len -> c_abm c = rev (map (fun iw => (fst iw, vals (snd iw))) (tagged (length doneRows) ws)) ++ m ->
  m = rev (map (fun iw => (fst iw, vals (snd iw))) (filter (fun iw => kept (dbg E) (snd iw)) (tagged 0 doneRows))) ->
  abm_result E c (flat_map marks (tagged (length doneRows) ws)) n =
  if dbg E && existsb twice ws then Panic PDebugAssert else
  Ret (set_abm c (rev (map (fun iw => (fst iw, vals (snd iw))) (filter (fun iw => kept (dbg E) (snd iw)) (tagged 0 (doneRows ++ ws))))),
       map (fun a => map (fun j => total a j (map vals (filter (kept (dbg E)) (doneRows ++ ws)))) (seq 0 len)) (seq 0 n)).
Proof.
  intros Hl Hc Hm.
  assert (Htot : forall agg, is_table len n (map snd (rev (map (fun iw : nat * row => (fst iw, vals (snd iw))) (filter (fun iw => kept (dbg E) (snd iw)) (tagged 0 (doneRows ++ ws)))))) agg ->
     agg = map (fun a => map (fun j => total a j (map vals (filter (kept (dbg E)) (doneRows ++ ws)))) (seq 0 len)) (seq 0 n)).
  { intros agg Ht. apply table_exact in Ht. rewrite Ht. apply map_ext. intros a. apply map_ext. intros j. rewrite map_rev, total_rev. f_equal.
    rewrite map_map. cbn [snd]. rewrite <- (map_map snd vals). rewrite tagged_filter_snd. reflexivity. }
  assert (Hcase : dbg E = true \/ dbg E = false) by (destruct (dbg E); auto). destruct Hcase as [Hd|Hd].
  - replace (dbg E && existsb twice ws) with (existsb twice ws) by (rewrite Hd; reflexivity). destruct (existsb twice ws) eqn:Ht.
    + apply (proj2 (abm_debug E c _ n Hd)). intros [Hn _]. revert Hn. apply marks_twice. exact Ht.
    + destruct (proj1 (abm_debug E c (flat_map marks (tagged (length doneRows) ws)) n Hd)) as (agg & Hr & Htab).
      * apply marks_nodup. exact Ht.
      * intros i Hi. apply marks_in in Hi. destruct Hi as (w & Hin & _). rewrite Hc, map_app, in_app_iff. left. apply in_map_iff. exists (i, vals w). split; [reflexivity|].
        apply in_rev. rewrite rev_involutive. apply in_map_iff. exists (i, w). auto.
      * assert (Hw : without (flat_map marks (tagged (length doneRows) ws)) (c_abm c) = rev (map (fun iw => (fst iw, vals (snd iw))) (filter (fun iw => kept (dbg E) (snd iw)) (tagged 0 (doneRows ++ ws))))).
        { rewrite done_app. rewrite Hc, without_app, (without_marks vals ws _ Hd). f_equal. rewrite Hm. apply without_all.
          intros k v Hin Hk. apply done_keys in Hin. apply marks_in in Hk. destruct Hk as (w & Hk & _). apply tagged_in in Hk. lia. }
        rewrite Hr. rewrite Hw in Htab |- *. rewrite Hl in Htab. rewrite (Htot agg Htab). reflexivity.
  - replace (dbg E && existsb twice ws) with false by (rewrite Hd; reflexivity). destruct (abm_release E c (flat_map marks (tagged (length doneRows) ws)) n Hd) as (agg & Hr & Htab). rewrite Hr.
    assert (Hw : c_abm c = rev (map (fun iw => (fst iw, vals (snd iw))) (filter (fun iw => kept (dbg E) (snd iw)) (tagged 0 (doneRows ++ ws))))).
    { rewrite done_app, Hc, Hm. rewrite !kept_release by exact Hd. reflexivity. }
    rewrite Hw in Htab. rewrite Hl in Htab. rewrite (Htot agg Htab). f_equal. f_equal. rewrite <- Hw. symmetry. apply set_abm_id.
Qed.

(** *** one batch *)
Lemma rows_made R ws : Forall2 (row_of E len vk attrs) R ws -> exists l0 l1, answers true (map fst R) l0 /\ answers false (map snd R) l1 /\ made l0 l1 ws /\
  length l0 = length ws /\ length l1 = length ws /\ map (fun x => fst (fst x)) l0 = map w_vals0 ws /\ map (fun x => fst (fst x)) l1 = map w_vals1 ws.
Proof.
  induction 1 as [|r w R ws Hw HR IH]; [exists [], []; repeat split; constructor|].
  destruct IH as (l0 & l1 & A0 & A1 & M & L0 & L1 & V0 & V1). destruct Hw as (ver0 & h0 & ver1 & h1 & T0 & T1 & Hd & Hs).
  exists ((w_vals0 w, ver0, h0) :: l0), ((w_vals1 w, ver1, h1) :: l1). split; [constructor; assumption|]. split; [constructor; assumption|].
  split; [constructor; [cbn; auto|exact M]|]. cbn [length map fst]. split; [lia|]. split; [lia|]. split; [rewrite V0; reflexivity|rewrite V1; reflexivity].
Qed.
Lemma tagged_map {A B} (f : A -> B) l : forall s, tagged s (map f l) = map (fun ix => (fst ix, f (snd ix))) (tagged s l).
Proof. induction l as [|x l IH]; intros s; [reflexivity|]. cbn [map]. rewrite !tagged_cons. cbn [map fst snd]. rewrite IH. reflexivity. Qed.
Lemma retag {A} (f : A -> list (list fld)) (l : list A) (g : row -> list (list fld)) ws s : map f l = map g ws ->
  map (fun ix : nat * A => (fst ix, f (snd ix))) (tagged s l) = map (fun iw : nat * row => (fst iw, g (snd iw))) (tagged s ws).
Proof. intros H. rewrite <- !tagged_map. rewrite H. reflexivity. Qed.

Lemma add_tables n (f g : nat -> nat -> fld) :
  add_all (map (fun a => map (f a) (seq 0 len)) (seq 0 n)) (map (fun a => map (g a) (seq 0 len)) (seq 0 n)) = map (fun a => map (fun j => fadd (f a j) (g a j)) (seq 0 len)) (seq 0 n).
Proof.
  generalize 0 at 2 4 6. induction n as [|n IH]; intros s; [reflexivity|]. cbn [seq map add_all]. rewrite IH. f_equal.
  generalize (seq 0 len). induction l as [|j l IHl]; [reflexivity|]. cbn [map vec_add]. rewrite IHl. reflexivity.
Qed.

Lemma abm_batch_run R doneRows ws Rb s0 s1 :
  side true (map fst R) w_vals0 doneRows s0 -> side false (map snd R) w_vals1 doneRows s1 ->
  (forall k r, nth_error Rb k = Some r -> nth_error R (length doneRows + k) = Some r) -> Forall2 (row_of E len vk attrs) Rb ws -> ws <> [] ->
  exists t0 t1, abm_batch E cfg s0 s1 attrs (length doneRows) (length doneRows + length ws) =
    (if dbg E && existsb twice ws then Panic PDebugAssert else Ret (t0, t1, row_table (dbg E) len attrs (doneRows ++ ws))) /\
    side true (map fst R) w_vals0 (doneRows ++ ws) t0 /\ side false (map snd R) w_vals1 (doneRows ++ ws) t1.
Proof.
  intros S0 S1 HR HF Hne. destruct (rows_made Rb ws HF) as (l0 & l1 & A0 & A1 & M & L0 & L1 & V0 & V1).
  assert (Hpos : 0 < length ws) by (destruct ws; [contradiction|cbn; lia]).
  assert (HR0 : forall k r, nth_error (map fst Rb) k = Some r -> nth_error (map fst R) (length doneRows + k) = Some r).
  { intros k r H. rewrite nth_error_map' in *. destruct (nth_error Rb k) as [x|] eqn:Hx; [|discriminate]. rewrite (HR _ _ Hx). exact H. }
  assert (HR1 : forall k r, nth_error (map snd Rb) k = Some r -> nth_error (map snd R) (length doneRows + k) = Some r).
  { intros k r H. rewrite nth_error_map' in *. destruct (nth_error Rb k) as [x|] eqn:Hx; [|discriminate]. rewrite (HR _ _ Hx). exact H. }
  pose proof (validate_batch true _ _ _ _ _ _ S0 HR0 A0) as Hv0. pose proof (validate_batch false _ _ _ _ _ _ S1 HR1 A1) as Hv1. rewrite L0 in Hv0. rewrite L1 in Hv1.
  rewrite (retag _ _ w_vals0 ws _ V0) in Hv0. rewrite (retag _ _ w_vals1 ws _ V1) in Hv1.
  pose proof S0 as (P0 & I0 & N0 & K0 & R0 & B0). pose proof S1 as (P1 & I1 & N1 & K1 & R1 & B1).
  set (c0 := set_abm (s_coll s0) (rev (map (fun iw => (fst iw, w_vals0 (snd iw))) (tagged (length doneRows) ws)) ++ c_abm (s_coll s0))) in *.
  set (c1 := set_abm (s_coll s1) (rev (map (fun iw => (fst iw, w_vals1 (snd iw))) (tagged (length doneRows) ws)) ++ c_abm (s_coll s1))) in *.
  pose proof (result_batch w_vals0 doneRows ws c0 (c_abm (s_coll s0)) (length attrs) N0 eq_refl B0) as Hr0.
  pose proof (result_batch w_vals1 doneRows ws c1 (c_abm (s_coll s1)) (length attrs) N1 eq_refl B1) as Hr1.
  set (m0 := rev (map (fun iw => (fst iw, w_vals0 (snd iw))) (filter (fun iw => kept (dbg E) (snd iw)) (tagged 0 (doneRows ++ ws))))) in *.
  set (m1 := rev (map (fun iw => (fst iw, w_vals1 (snd iw))) (filter (fun iw => kept (dbg E) (snd iw)) (tagged 0 (doneRows ++ ws))))) in *.
  exists (set_coll (set_coll s0 c0) (set_abm c0 m0)), (set_coll (set_coll s1 c1) (set_abm c1 m1)).
  assert (Hlt : (length doneRows <? length doneRows + length ws) = true) by (apply Nat.ltb_lt; lia).
  split; [|split; [exact (conj P0 (conj I0 (conj N0 (conj K0 (conj R0 eq_refl)))))|exact (conj P1 (conj I1 (conj N1 (conj K1 (conj R1 eq_refl)))))]].
  unfold abm_batch.
  rewrite (proj2 (call2_ret E s0 s1 _ _ (set_coll s0 c0) (set_coll s1 c1) (AAbm (map (fun x => (snd (fst x), snd x)) l0)) (AAbm (map (fun x => (snd (fst x), snd x)) l1)))).
  2:{ split; apply handle_ret; (split; [cbn [prelock]; rewrite Hlt; apply debug_assert_true; reflexivity|]); (split; [assumption|]); eexists; (split; [|reflexivity]); cbn [body]; [rewrite Hv0|rewrite Hv1]; reflexivity. }
  cbn [bind]. rewrite !map_length, L0, L1. replace (length doneRows + length ws - length doneRows) with (length ws) by lia. rewrite Nat.eqb_refl. cbn [assert_ bind].
  rewrite Hlen, (rejected_rows l0 l1 ws) by (try exact M; lia). cbn [bind].
  destruct (dbg E && existsb twice ws) eqn:Ht.
  - assert (Hh : handle E (set_coll s0 c0) (QAbmResult (flat_map marks (tagged (length doneRows) ws)) (length attrs) (length doneRows) (length doneRows + length ws)) = (set_poison (set_coll s0 c0), Panic PDebugAssert)).
    { unfold handle. cbn [prelock]. rewrite Hlt, debug_assert_true by reflexivity. cbn [set_coll s_poison s_coll body]. rewrite P0, Hr0. reflexivity. }
    unfold call2. rewrite Hh. destruct (handle E (set_coll s1 c1) _) as [x y]. reflexivity.
  - rewrite (proj2 (call2_ret E (set_coll s0 c0) (set_coll s1 c1) _ _ (set_coll (set_coll s0 c0) (set_abm c0 m0)) (set_coll (set_coll s1 c1) (set_abm c1 m1))
       (AFields (map (fun a => map (fun j => total a j (map w_vals0 (filter (kept (dbg E)) (doneRows ++ ws)))) (seq 0 len)) (seq 0 (length attrs))))
       (AFields (map (fun a => map (fun j => total a j (map w_vals1 (filter (kept (dbg E)) (doneRows ++ ws)))) (seq 0 len)) (seq 0 (length attrs)))))).
    2:{ split; apply handle_ret; (split; [cbn [prelock]; rewrite Hlt; apply debug_assert_true; reflexivity|]); (split; [assumption|]); eexists; (split; [|reflexivity]); cbn [body set_coll s_coll]; [rewrite Hr0|rewrite Hr1]; reflexivity. }
    cbn [bind]. do 3 f_equal. rewrite (add_tables (length attrs) (fun a j => total a j _) (fun a j => total a j _)). unfold row_table, cell. f_equal.
    apply map_ext. intros a. apply map_ext. intros j. unfold total. rewrite !map_map. apply fsum_add.
Qed.

Lemma steps_spec b n : 0 < b -> forall fuel s, n - s <= fuel -> steps fuel s n b = map (fun k => s + k * b) (seq 0 ((n - s + b - 1) / b)).
Proof.
  intros Hb. induction fuel as [|fuel IH]; intros s Hf; cbn [steps].
  - replace (n - s) with 0 by lia. rewrite Nat.div_small by lia. reflexivity.
  - destruct (s <? n) eqn:Hs.
    + apply Nat.ltb_lt in Hs. rewrite IH by lia.
      assert (Hd : (n - s + b - 1) / b = S ((n - (s + b) + b - 1) / b)).
      { destruct (Nat.le_gt_cases (s + b) n) as [Hle|Hgt].
        - replace (n - s + b - 1) with ((n - (s + b) + b - 1) + 1 * b) by lia. rewrite Nat.div_add by lia. lia.
        - replace (n - (s + b) + b - 1) with (b - 1) by lia. rewrite (Nat.div_small (b - 1)) by lia. symmetry. apply (Nat.div_unique _ _ 1 (n - s - 1)); lia. }
      rewrite Hd. cbn [seq map]. f_equal; [lia|]. rewrite <- seq_shift, map_map. apply map_ext. intros k. cbn [Nat.mul]. lia.
    + apply Nat.ltb_ge in Hs. replace (n - s) with 0 by lia. rewrite Nat.div_small by lia. reflexivity.
Qed.
Lemma step_ends n b : 0 < b -> map (fun st => Nat.min n (st + b)) (steps n 0 n b) = batch_ends n b.
Proof.
  intros Hb. rewrite steps_spec by lia. unfold batch_ends. rewrite Nat.sub_0_r, map_map. apply map_ext. intros k. f_equal. lia.
Qed.

Lemma abm_batches_run R rows : Forall2 (row_of E len vk attrs) R rows -> 0 < cfg_query_batch cfg ->
  forall fuel doneRows rest s0 s1, rows = doneRows ++ rest -> length rest <= fuel ->
  side true (map fst R) w_vals0 doneRows s0 -> side false (map snd R) w_vals1 doneRows s1 ->
  exists t0 t1, abm_batches E cfg s0 s1 attrs (length rows) (steps fuel (length doneRows) (length rows) (cfg_query_batch cfg)) =
    if dbg E && existsb twice rest then Panic PDebugAssert else
    Ret (t0, t1, map (fun st => row_table (dbg E) len attrs (firstn (Nat.min (length rows) (st + cfg_query_batch cfg)) rows)) (steps fuel (length doneRows) (length rows) (cfg_query_batch cfg))).
Proof.
  intros HF Hb. set (b := cfg_query_batch cfg) in *.
  induction fuel as [|fuel IH]; intros doneRows rest s0 s1 Hrows Hf S0 S1; cbn [steps].
  - destruct rest; [|cbn in Hf; lia]. cbn [existsb]. rewrite andb_false_r. cbn. eauto.
  - assert (Hll : length rows = length doneRows + length rest) by (rewrite Hrows; apply app_length).
    destruct (length doneRows <? length rows) eqn:Hlt.
    2:{ apply Nat.ltb_ge in Hlt. destruct rest; [|cbn in Hll; lia]. cbn [existsb]. rewrite andb_false_r. cbn. eauto. }
    apply Nat.ltb_lt in Hlt. cbn [abm_batches].
    set (ws := firstn b rest). set (rest' := skipn b rest).
    assert (Hr : rest = ws ++ rest') by (symmetry; apply firstn_skipn).
    assert (Hlw : length ws = Nat.min b (length rest)) by apply firstn_length.
    assert (Hstop : Nat.min (length rows) (length doneRows + b) = length doneRows + length ws) by lia.
    fold b. rewrite Hstop.
    pose proof (Forall2_len _ _ _ HF) as HRl.
    assert (HRb : Forall2 (row_of E len vk attrs) (firstn (length ws) (skipn (length doneRows) R)) ws).
    { rewrite Hrows, Hr in HF. clear -HF. apply Forall2_app_inv_r in HF. destruct HF as (R1 & R2 & H1 & H2 & ->). apply Forall2_app_inv_r in H2. destruct H2 as (R3 & R4 & H3 & H4 & ->).
      assert (L1 : length R1 = length doneRows) by (induction H1; cbn; congruence). assert (L3 : length R3 = length ws) by (clear -H3; induction H3; cbn; congruence).
      rewrite <- L1, <- L3. rewrite skipn_app, skipn_all, Nat.sub_diag. cbn [skipn app]. rewrite firstn_app, firstn_all, Nat.sub_diag, firstn_O, app_nil_r. exact H3. }
    destruct (abm_batch_run R doneRows ws (firstn (length ws) (skipn (length doneRows) R)) s0 s1 S0 S1) as (t0 & t1 & Hbatch & T0 & T1).
    { intros k r Hk. assert (Hkl : k < length ws). { assert (k < length (firstn (length ws) (skipn (length doneRows) R))) by (apply nth_error_Some; congruence). rewrite firstn_length in *. lia. }
      rewrite <- (firstn_skipn (length ws) (skipn (length doneRows) R)) in *.
      assert (Hk2 : nth_error (skipn (length doneRows) R) k = Some r). { rewrite <- (firstn_skipn (length ws) (skipn (length doneRows) R)). rewrite nth_error_app1; [|apply nth_error_Some; rewrite firstn_skipn in Hk; congruence]. rewrite firstn_skipn in Hk. exact Hk. }
      rewrite nth_error_skipn in Hk2. exact Hk2. }
    { exact HRb. }
    { intros Hc. rewrite Hc in Hlw. cbn in Hlw. lia. }
    rewrite Hbatch. replace (existsb twice rest) with (existsb twice ws || existsb twice rest') by (rewrite <- existsb_app, <- Hr; reflexivity).
    destruct (dbg E && existsb twice ws) eqn:Ht.
    { apply andb_true_iff in Ht. destruct Ht as [-> ->]. cbn. eauto. }
    cbn [bind].
    replace (dbg E && (existsb twice ws || existsb twice rest')) with (dbg E && existsb twice rest') by (destruct (dbg E); [cbn in Ht; rewrite Ht|]; reflexivity).
    destruct (IH (doneRows ++ ws) rest' t0 t1) as (u0 & u1 & Hrest).
    { rewrite <- app_assoc, <- Hr. exact Hrows. }
    { assert (length rest = length ws + length rest') by (rewrite <- app_length, <- Hr; reflexivity). lia. }
    { exact T0. } { exact T1. }
    exists u0, u1.
    assert (Hst : steps fuel (length (doneRows ++ ws)) (length rows) b = steps fuel (length doneRows + b) (length rows) b).
    { rewrite app_length. destruct (Nat.le_gt_cases b (length rest)) as [Hle|Hgt]; [rewrite Hlw; f_equal; lia|].
      rewrite !steps_spec by lia. replace (length rows - (length doneRows + length ws)) with 0 by lia. replace (length rows - (length doneRows + b)) with 0 by lia. rewrite Nat.div_small by lia. reflexivity. }
    rewrite Hst in Hrest. rewrite Hrest. destruct (dbg E && existsb twice rest'); [reflexivity|]. cbn [bind map]. do 3 f_equal.
    rewrite Hstop. f_equal. replace rows with ((doneRows ++ ws) ++ rest') by (rewrite <- app_assoc, <- Hr; symmetry; exact Hrows). rewrite <- app_length, firstn_app, firstn_all, Nat.sub_diag, firstn_O, app_nil_r. reflexivity.
Qed.

Lemma run_abm_exact R rows s0 s1 : Forall2 (row_of E len vk attrs) R rows -> 0 < cfg_query_batch cfg ->
  untouched true len vk (map fst R) s0 -> untouched false len vk (map snd R) s1 ->
  exists t0 t1, run_abm E cfg s0 s1 attrs (length rows) =
    if dbg E && existsb (fun w => negb (w_fit w) && negb (w_agree w)) rows then Panic PDebugAssert else
    Ret (t0, t1, map (fun e => row_table (dbg E) len attrs (firstn e rows)) (batch_ends (length rows) (cfg_query_batch cfg))).
Proof.
  intros HF Hb (P0 & I0 & N0 & K0 & R0 & B0) (P1 & I1 & N1 & K1 & R1 & B1).
  unfold run_abm, step_by. rewrite (proj2 (Nat.eqb_neq _ _)) by lia. cbn [bind].
  destruct (abm_batches_run R rows HF Hb (length rows) [] rows s0 s1 eq_refl (Nat.le_refl _)) as (t0 & t1 & H).
  { repeat (split; [assumption|]). exact B0. } { repeat (split; [assumption|]). exact B1. }
  exists t0, t1. cbn [length] in H. rewrite H. rewrite <- step_ends by exact Hb. rewrite map_map. reflexivity.
Qed.
End Abm.
