(** A complete run with one forged report (C28, C29). *)
From Verif Require Import Base BaseFacts Field Util UtilFacts Env Prg Vidpf SpecVidpf SpecTree VidpfFacts VidpfTreeFacts VidpfTreeFacts3 Merkle Collect Server Driver SpecCollect SpecServer SpecDriver SpecCheck SpecLevel SpecWhh SpecSearch SpecLast SpecRun SpecForge
  CollectFacts CollectInv ServerFacts DriverFacts LevelFacts PairFacts WhhFacts WhhFacts2 HonestFacts SearchFacts SearchRun SearchMain SearchProp LastFacts RunFacts ForgeFacts ForgeProp.

Lemma bad_ranks_none E len level paths R : (forall x, In x (remaining R) -> consistent E len level paths x = true) -> bad_ranks E len level paths R = [].
Proof.
  intros H. destruct (bad_ranks E len level paths R) as [|i l] eqn:Hb; [reflexivity|]. exfalso. assert (Hi : In i (bad_ranks E len level paths R)) by (rewrite Hb; left; reflexivity).
  unfold bad_ranks in Hi. apply filter_In in Hi. destruct Hi as [_ Hi]. destruct (nth_error (remaining R) i) as [x|] eqn:Hx; [|discriminate]. apply nth_error_In in Hx. rewrite (H x Hx) in Hi. discriminate.
Qed.
Lemma fsum_app a : forall b, fsum (a ++ b) = fadd (fsum a) (fsum b).
Proof. induction a as [|x a IH]; intros b; cbn [app fsum]; [change (of_Z 0) with fzero; ring|]. rewrite IH. ring. Qed.
Lemma remaining_app (A B : list pair) : remaining (A ++ B) = remaining A ++ remaining B.
Proof. apply filter_app. Qed.
Lemma remaining_pairs L : remaining (pairs_of L) = pairs_of (filter e_ok L).
Proof. unfold remaining, pairs_of. induction L as [|e L IH]; [reflexivity|]. cbn [map filter fst]. destruct (e_ok e) eqn:He; cbn [map]; rewrite ?He, IH; reflexivity. Qed.

Section Forged.
Variable E : env.
Hypothesis Hok : env_ok E.
Variables (len bits : nat) (L : list entry).
Hypothesis Hgood : Forall (good_entry E len bits) L.
Variables (k0 k1 k0' k1' : vidpf_key) (alpha : list bool) (beta : list fld) (r0 r1 : report_share) (t : nat -> list fld).
Hypothesis Hh : honest_pair E k0 k1 alpha beta.
Hypothesis Hal : length alpha = bits.
Hypothesis Hbe : length beta = len.
Hypothesis Hk0 : key_of r0 = k0'.
Hypothesis Hk1 : key_of r1 = k1'.
Hypothesis HC0 : same_checks E true len bits k0 k0'.
Hypothesis HC1 : same_checks E false len bits k1 k1'.
Hypothesis Hval : forall p, p <> [] -> length p <= bits -> value_at E len k0' k1' p = if is_prefix p alpha then t (length p) else repeat (of_Z 0) (len + 1).
Definition forged_pairs : list pair := pairs_of L ++ [(true, (r0, r1))].
Notation R := forged_pairs.

Lemma remaining_forged : remaining R = pairs_of (filter e_ok L) ++ [(true, (r0, r1))].
Proof. unfold forged_pairs. rewrite remaining_app, remaining_pairs. reflexivity. Qed.
Lemma forged_consistent level paths x : (forall p, In p paths -> length p = level) -> S level < bits -> In x (remaining R) -> consistent E len level paths x = true.
Proof.
  intros Hp Hl Hx. rewrite remaining_forged in Hx. apply in_app_iff in Hx. unfold consistent. apply bytes_eqb_eq. unfold vstring. destruct Hx as [Hx|[<-|[]]].
  - unfold pairs_of in Hx. apply in_map_iff in Hx. destruct Hx as (e & <- & He). apply filter_In in He. destruct He as [He Ho]. cbn [share_of snd fst].
    destruct (good_honest E len bits L Hgood _ He Ho) as (Hp' & Ha & Hb). rewrite <- Hb. apply (honest_strings E Hok _ _ _ _ Hp'); [exact Hp|lia].
  - cbn [share_of snd fst]. rewrite Hk0, Hk1. destruct HC0 as (_ & A & _). destruct HC1 as (_ & B & _). rewrite (A level paths Hl Hp), (B level paths Hl Hp).
    rewrite <- Hbe. apply (honest_strings E Hok _ _ _ _ Hh); [exact Hp|lia].
Qed.
Lemma forged_agree paths x : (forall p, In p paths -> S (length p) = bits) -> In x (remaining R) -> proofs_agree E len paths x = true.
Proof.
  intros Hp Hx. rewrite remaining_forged in Hx. apply in_app_iff in Hx. unfold proofs_agree. apply bytes_eqb_eq.
  assert (Hch : forall q, In q (children paths) -> q <> [] /\ length q <= bits).
  { intros q Hq. apply children_in in Hq. destruct Hq as (p & d & Hin & ->). split; [destruct p; discriminate|]. specialize (Hp p Hin). rewrite app_length. cbn. lia. }
  destruct Hx as [Hx|[<-|[]]].
  - unfold pairs_of in Hx. apply in_map_iff in Hx. destruct Hx as (e & <- & He). apply filter_In in He. destruct He as [He Ho]. cbn [share_of snd fst].
    destruct (good_honest E len bits L Hgood _ He Ho) as (Hp' & Ha & Hb). rewrite <- Hb. apply (honest_proofs_xor E Hok _ _ _ _ Hp'). rewrite Ha. exact Hch.
  - cbn [share_of snd fst]. rewrite Hk0, Hk1. destruct HC0 as (_ & _ & A). destruct HC1 as (_ & _ & B). rewrite (A paths Hp), (B paths Hp).
    rewrite <- Hbe. apply (honest_proofs_xor E Hok _ _ _ _ Hh). rewrite Hal. exact Hch.
Qed.

Lemma seen_forged p j : p <> [] -> length p <= bits -> j <= len ->
  seen_value E len R p j = fadd (if j =? len then of_Z (count L p) else weight L p j) (if is_prefix p alpha then nth j (t (length p)) (of_Z 0) else of_Z 0).
Proof.
  intros Hne Hp Hj. unfold seen_value. rewrite remaining_forged, map_app, fsum_app. f_equal.
  - rewrite <- (val_sum E Hok len bits L Hgood p j Hne Hp Hj). unfold val0, val1.
    rewrite !sum_honest_nth by (try lia; unfold words_of, held0, held1; rewrite !map_length; reflexivity).
    unfold masked_sum, words_of, held0, held1. rewrite !map_map. cbn [fst snd]. rewrite !select_flags, !map_map, fsum_add. unfold pairs_of. rewrite map_map. reflexivity.
  - cbn [map fsum]. cbn [share_of snd fst]. rewrite Hk0, Hk1. pose proof (Hval p Hne Hp) as Hv. unfold value_at in Hv.
    assert (Hn : nth j (sum_vec (len + 1) (word_at E k0' len p) (word_at E k1' len p)) (of_Z 0) = fadd (nth j (word_at E k0' len p) (of_Z 0)) (nth j (word_at E k1' len p) (of_Z 0))).
    { unfold sum_vec. refine (nth_map_in (fun i => fadd (nth i (word_at E k0' len p) (of_Z 0)) (nth i (word_at E k1' len p) (of_Z 0))) (seq 0 (len + 1)) j j (of_Z 0) _). rewrite nth_error_seq by lia. reflexivity. }
    rewrite <- Hn, Hv. destruct (is_prefix p alpha); [change (of_Z 0) with fzero; ring|]. rewrite nth_repeat. change (of_Z 0) with fzero. ring.
Qed.

Variables (c : Z) (thr : Z).
Hypothesis Hc0 : (1 <= thr)%Z.
Hypothesis Hc1 : (c + Z.of_nat (length L) < 2 ^ 64)%Z.
Hypothesis Hthr : (thr <= c)%Z.
Hypothesis Hfirst : (thr <= 1 + count L (firstn 1 alpha))%Z.
Hypothesis Hbits : 2 <= bits.
Hypothesis Ht1 : nth len (t 1) (of_Z 0) = of_Z 1.
Hypothesis Htl : forall l, 2 <= l <= bits -> nth len (t l) (of_Z 0) = of_Z c.

Lemma prefix_at l : 1 <= l <= bits -> firstn l alpha <> [] /\ length (firstn l alpha) = l /\ is_prefix (firstn l alpha) alpha = true.
Proof.
  intros Hl. assert (Hn : length (firstn l alpha) = l) by (rewrite firstn_length; lia). split; [intros H; rewrite H in Hn; cbn in Hn; lia|]. split; [exact Hn|apply prefix_firstn].
Qed.
Lemma small_val z : (0 <= z < 2 ^ 64)%Z -> (fval (of_Z z) mod 2 ^ 64 = z)%Z.
Proof. intros Hz. rewrite fval_of_Z, (Z.mod_small z P); [apply Z.mod_small; exact Hz|]. split; [lia|]. apply Z.lt_trans with (2 ^ 64)%Z; [lia|reflexivity]. Qed.
Lemma forged_survives l : 1 <= l <= bits -> (thr <=? seen_count E len R (firstn l alpha))%Z = true.
Proof.
  intros Hl. destruct (prefix_at l Hl) as (Hne & Hn & Hpre). change (seen_count E len R (firstn l alpha)) with (fval (seen_value E len R (firstn l alpha) len) mod 2 ^ 64)%Z.
  rewrite seen_forged by (try assumption; lia). rewrite Nat.eqb_refl, Hpre, Hn. pose proof (supporters_le L (firstn l alpha)) as Hs.
  assert (Hcnt : (0 <= count L (firstn l alpha) <= Z.of_nat (length L))%Z) by (unfold count; lia).
  apply Z.leb_le. destruct (Nat.eq_dec l 1) as [->|Hl1].
  - rewrite Ht1, <- of_Z_add, small_val; lia.
  - rewrite Htl, <- of_Z_add, small_val by lia. lia.
Qed.
Lemma forged_levels n : forall level paths, (forall p, In p paths -> length p = level) -> In (firstn level alpha) paths -> level + n < bits ->
  fine_levels E len thr n level paths R /\
  exists paths', levels_effect E len thr n level paths R = Ret (paths', R) /\ (forall p, In p paths' -> length p = level + n) /\ In (firstn (level + n) alpha) paths'.
Proof.
  induction n as [|n IH]; intros level paths Hp Hin Hl.
  - split; [exact I|]. exists paths. rewrite Nat.add_0_r. auto.
  - assert (Hb : bad_ranks E len level paths R = []) by (apply bad_ranks_none; intros x Hx; apply forged_consistent; [exact Hp|lia|exact Hx]).
    assert (Hle : level_effect E len thr level paths R = Ret (survivors E len thr R paths, R)).
    { unfold level_effect. rewrite Hb. destruct paths as [|p ps]; [destruct Hin|]. rewrite remaining_forged, app_length. cbn [length]. rewrite Nat.add_1_r. reflexivity. }
    assert (Hin' : In (firstn (S level) alpha) (survivors E len thr R paths)).
    { apply filter_In. split; [|apply forged_survives; lia].
      assert (Hnth : exists d, firstn (S level) alpha = firstn level alpha ++ [d]).
      { destruct (nth_error alpha level) as [d|] eqn:Hd; [exists d; apply firstn_S_nth; exact Hd|apply nth_error_None in Hd; lia]. }
      destruct Hnth as [d ->]. apply children_in. eauto. }
    assert (Hp' : forall p, In p (survivors E len thr R paths) -> length p = S level) by (intros p; apply survivors_length; exact Hp).
    destruct (IH (S level) _ Hp' Hin' ltac:(lia)) as (Hf & paths' & He & Hpl & Hi). cbn [fine_levels levels_effect]. rewrite Hle. cbn [bind]. split.
    + split; [intros Hx; contradiction|exact Hf].
    + exists paths'. replace (level + S n) with (S level + n) by lia. auto.
Qed.

Lemma forged_effect batch : fine_levels E len thr (bits - 1) 0 [[]] R /\
  exists rs, run_effect E len thr batch bits R = Ret rs /\ In (seen_result E len R alpha) rs.
Proof.
  destruct (forged_levels (bits - 1) 0 [[]]) as (Hf & paths & He & Hp & Hin).
  - intros p [<-|[]]. reflexivity.
  - left. reflexivity.
  - lia.
  - split; [exact Hf|]. unfold run_effect. rewrite He. cbn [bind].
    assert (Hall : forallb (proofs_agree E len paths) (firstn (compared (length R) (length (remaining R)) batch) (remaining R)) = true).
    { apply forallb_forall. intros x Hx. assert (Hx' : In x (remaining R)) by (rewrite <- (firstn_skipn (compared (length R) (length (remaining R)) batch) (remaining R)); apply in_app_iff; left; exact Hx). clear Hx. rename Hx' into Hx. apply forged_agree; [|exact Hx]. intros p Hpin. rewrite (Hp p Hpin). lia. }
    rewrite Hall. eexists. split; [reflexivity|]. apply in_map. apply filter_In. split.
    + assert (Hnth : exists d, alpha = firstn (0 + (bits - 1)) alpha ++ [d]).
      { cbn [Nat.add]. destruct (nth_error alpha (bits - 1)) as [d|] eqn:Hd; [|apply nth_error_None in Hd; lia]. exists d. rewrite <- (firstn_S_nth _ _ _ Hd).
        replace (S (bits - 1)) with (length alpha) by lia. rewrite firstn_all. reflexivity. }
      destruct Hnth as [d Ha]. rewrite Ha. apply children_in. eauto.
    + rewrite <- (firstn_all alpha), Hal. apply forged_survives. lia.
Qed.
End Forged.

(** the values by prefix length: honest at the first level, then counter c, at the last level weights w *)
Definition run_values (bits : nat) (beta w : list fld) (c : Z) (l : nat) : list fld :=
  if l =? 1 then beta ++ [of_Z 1] else if l =? bits then w ++ [of_Z c] else beta ++ [of_Z c].

Lemma forge_run E len bits vk cfg L n0 k0 p0 j0 n1 k1 p1 j1 alpha beta w c :
  env_ok E -> Forall (good_entry E len bits) L -> Forall (fun e => report_verdict E len vk (e_r0 e) (e_r1 e) (e_ok e)) L ->
  honest_keys E k0 k1 alpha beta -> length alpha = bits -> length beta = len -> 2 <= bits ->
  report_verdict E len vk (RSMastic n0 k0 p0 j0) (RSMastic n1 k1 p1 j1) true ->
  length w = len -> (threshold cfg <= c)%Z -> (c + Z.of_nat (length L) < 2 ^ 64)%Z -> (threshold cfg <= 1 + count L (firstn 1 alpha))%Z ->
  cfg_hist cfg = len -> cfg_bits cfg = Some bits -> 0 < cfg_query_batch cfg ->
  exists k0' k1', forall fuel s0 s1, uploaded true len bits vk (map e_r0 L ++ [RSMastic n0 k0' p0 j0]) s0 -> uploaded false len bits vk (map e_r1 L ++ [RSMastic n1 k1' p1 j1]) s1 ->
    length L + 3 <= fuel ->
    exists t0 t1 rs, run_whh fuel E cfg s0 s1 (length L + 1) = Ret (t0, t1, rs) /\
      In {| res_path := alpha; res_value := map (fun j => fadd (weight L alpha j) (nth j w (of_Z 0))) (seq 0 len) ++ [of_Z (count L alpha + c)] |} rs.
Proof.
  intros Hok Hgood Hver Hk Hal Hbe Hb Hv Hw Hthr Hc Hfirst Hcfg Hcb Hbatch. subst bits len.
  set (t := run_values (length alpha) beta w c).
  assert (Htn : forall l, length (t l) = length beta + 1) by (intros l; unfold t, run_values; destruct (l =? 1); [|destruct (l =? _)]; rewrite app_length; cbn; lia).
  destruct (forge_any E k0 k1 alpha beta t Hok Hk ltac:(lia) Htn) as (k0' & k1' & HC0 & HC1 & W0 & W1 & Hval).
  { reflexivity. }
  { intros l Hl. unfold t, run_values. destruct (l =? 1); [apply firstn_base|]. rewrite (proj2 (Nat.eqb_neq l _)) by lia. apply firstn_base. }
  exists k0', k1'. intros fuel s0 s1 U0 U1 Hf.
  set (r0 := RSMastic n0 k0' p0 j0) in *. set (r1 := RSMastic n1 k1' p1 j1) in *. set (R := forged_pairs L r0 r1).
  assert (HnR : length R = length L + 1) by (unfold R, forged_pairs, pairs_of; rewrite app_length, map_length; reflexivity).
  assert (Ht1 : nth (length beta) (t 1) (of_Z 0) = of_Z 1) by (unfold t, run_values; cbn [Nat.eqb]; rewrite app_nth2, Nat.sub_diag by lia; reflexivity).
  assert (Htl : forall l, 2 <= l <= length alpha -> nth (length beta) (t l) (of_Z 0) = of_Z c).
  { intros l Hl. unfold t, run_values. rewrite (proj2 (Nat.eqb_neq l 1)) by lia. destruct (l =? _); [rewrite <- Hw|]; rewrite app_nth2, Nat.sub_diag by lia; reflexivity. }
  destruct (forged_effect E Hok (length beta) (length alpha) L Hgood k0 k1 k0' k1' alpha beta r0 r1 t (honest_keys_pair _ _ _ _ _ Hok Hk) eq_refl eq_refl eq_refl eq_refl HC0 HC1 Hval c (threshold cfg)
    ltac:(unfold threshold; lia) Hc Hthr Hfirst Hb Ht1 Htl (cfg_query_batch cfg)) as (Hfine & rs & He & Hin). fold R in Hfine, He, Hin.
  destruct (run_exact fuel E cfg (length beta) (length alpha) vk R s0 s1) as (t0 & t1 & Hrun); try assumption; try lia.
  - unfold R, forged_pairs, well_formed_pairs. apply Forall_app. split.
    + unfold pairs_of. apply Forall_map. eapply Forall_impl; [|exact Hgood]. intros e (A & B & _). split; assumption.
    + constructor; [|constructor]. cbn [share_of fst snd]. split; [exists n0, k0', p0, j0|exists n1, k1', p1, j1]; (split; [reflexivity|]); assumption.
  - unfold flp_flags. rewrite (proj2 (Nat.eqb_neq (length alpha) 1)) by lia. unfold R, forged_pairs. apply Forall_app. split.
    + unfold pairs_of. apply Forall_map. eapply Forall_impl; [|exact Hver]. intros e H. exact H.
    + constructor; [|constructor]. cbn [share_of fst snd]. eapply same_verdict; eassumption.
  - unfold R, forged_pairs, pairs_of. rewrite map_app, map_map. exact U0.
  - unfold R, forged_pairs, pairs_of. rewrite map_app, map_map. exact U1.
  - rewrite HnR in Hrun. rewrite He in Hrun. cbn [bind] in Hrun. exists t0, t1, rs. split; [exact Hrun|].
    match goal with |- In ?r rs => assert (Heq : seen_result E (length beta) R alpha = r); [|rewrite <- Heq; exact Hin] end.
    unfold seen_result. f_equal. rewrite seq_app, map_app. cbn [seq map Nat.add].
    assert (Hne : alpha <> []) by (intros Hx; rewrite Hx in Hb; cbn in Hb; lia).
    assert (Hpre : is_prefix alpha alpha = true) by (rewrite <- (firstn_all alpha) at 1; apply prefix_firstn).
    assert (Hta : t (length alpha) = w ++ [of_Z c]) by (unfold t, run_values; rewrite (proj2 (Nat.eqb_neq (length alpha) 1)), Nat.eqb_refl by lia; reflexivity).
    assert (Hsv : forall j, j <= length beta -> seen_value E (length beta) R alpha j =
      fadd (if j =? length beta then of_Z (count L alpha) else weight L alpha j) (nth j (w ++ [of_Z c]) (of_Z 0))).
    { intros j Hj. unfold R. rewrite (seen_forged E Hok (length beta) (length alpha) L Hgood k0' k1' alpha beta r0 r1 t eq_refl eq_refl eq_refl eq_refl Hval alpha j Hne ltac:(lia) Hj). rewrite Hpre, Hta. reflexivity. }
    f_equal.
    + apply map_ext_in. intros j Hj. apply in_seq in Hj. rewrite Hsv by lia. rewrite (proj2 (Nat.eqb_neq j _)) by lia. rewrite app_nth1 by lia. reflexivity.
    + rewrite Hsv by lia. rewrite Nat.eqb_refl, of_Z_add. rewrite <- Hw, app_nth2, Nat.sub_diag by lia. reflexivity.
Qed.
