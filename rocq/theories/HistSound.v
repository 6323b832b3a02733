(** Soundness of the proof system: how many choices of the randomness accept an invalid input. *)
From Verif Require Import Base Field Util Env PrimeFacts Histogram PolyFacts HistFacts SpecVidpf SpecWhh SpecHist Server.

Lemma f_dec (a b : fld) : {a = b} + {a <> b}.
Proof. destruct (feqb a b) eqn:E; [left; apply feqb_eq; exact E|right; intros H; apply feqb_eq in H; congruence]. Qed.

(** *** counting *)
Lemma fibres {A B} (dec : forall a b : A, {a = b} + {a <> b}) (k : nat) (L : list A) : forall T : list (A * B),
  NoDup T -> (forall t, In t T -> In (fst t) L) -> (forall a S, In a L -> NoDup S -> (forall b, In b S -> In (a, b) T) -> length S <= k) ->
  length T <= k * length L.
Proof.
  induction L as [|a L IH]; intros T Hn Hin Hk.
  - destruct T as [|t T]; [cbn; lia|exfalso; exact (Hin t (or_introl eq_refl))].
  - set (f := fun t : A * B => if dec (fst t) a then true else false).
    assert (Hsplit : length T = length (filter f T) + length (filter (fun t => negb (f t)) T)).
    { clear. induction T as [|t T IH]; [reflexivity|]. cbn [filter length]. destruct (f t); cbn [negb length]; lia. }
    assert (H1 : length (filter f T) <= k).
    { rewrite <- (map_length snd). apply (Hk a); [left; reflexivity| |].
      - apply NoDup_map_in; [|apply NoDup_filter, Hn]. intros x y Hx Hy Hxy. apply filter_In in Hx, Hy. unfold f in *.
        destruct Hx as [_ Hx], Hy as [_ Hy]. destruct (dec (fst x) a); [|discriminate]. destruct (dec (fst y) a); [|discriminate]. destruct x, y. cbn in *. congruence.
      - intros b Hb. apply in_map_iff in Hb. destruct Hb as (x & <- & Hx). apply filter_In in Hx. destruct Hx as [Hx Hf]. unfold f in Hf.
        destruct (dec (fst x) a) as [<-|]; [|discriminate]. destruct x. exact Hx. }
    assert (H2 : length (filter (fun t => negb (f t)) T) <= k * length L).
    { apply IH; [apply NoDup_filter, Hn| |].
      - intros t Ht. apply filter_In in Ht. destruct Ht as [Ht Hf]. unfold f in Hf. destruct (dec (fst t) a) as [|Hne]; [discriminate|].
        destruct (Hin t Ht) as [He|He]; [congruence|exact He].
      - intros a' S Ha HS Hb. apply (Hk a'); [right; exact Ha|exact HS|]. intros b HbS. apply Hb in HbS. apply filter_In in HbS. tauto. }
    cbn [length]. lia.
Qed.
Lemma split_count {A} (f : A -> bool) l : length l = length (filter f l) + length (filter (fun x => negb (f x)) l).
Proof. induction l as [|x l IH]; [reflexivity|]. cbn [filter length]. destruct (f x); cbn [negb length]; lia. Qed.

(** *** a polynomial that vanishes everywhere has no coefficients *)
Lemma root_ne_zero l k : l <= 66 -> fpow (root l) k <> fzero.
Proof.
  intros Hl. apply fpow_ne_zero. intros H. pose proof (root_full l Hl) as Hf. rewrite H in Hf. pose proof (pow2_pos l).
  destruct (2 ^ l) as [|n]; [lia|]. cbn [fpow] in Hf. apply one_ne_zero. rewrite <- Hf. ring.
Qed.
Lemma vanishing l p : l <= 66 -> length p <= 2 ^ l -> (forall x, poly_eval p x = fzero) -> forall i, nth i p fzero = fzero.
Proof.
  intros Hl. induction p as [|c p IH]; intros Hp H i; [destruct i; reflexivity|]. cbn [length] in Hp.
  assert (Hc : c = fzero) by (pose proof (H fzero) as H0; cbn [poly_eval] in H0; rewrite <- H0; ring).
  destruct i as [|i]; [exact Hc|]. cbn [nth]. apply IH; [lia|].
  apply (roots_zero (map (fpow (root l)) (seq 0 (2 ^ l)))); [apply domain_nodup, Hl|rewrite map_length, seq_length; lia|].
  intros r Hr. apply in_map_iff in Hr. destruct Hr as (k & <- & _). pose proof (H (fpow (root l) k)) as Hk. cbn [poly_eval] in Hk. rewrite Hc in Hk.
  assert (Hz : fmul (fpow (root l) k) (poly_eval p (fpow (root l) k)) = fzero) by (rewrite <- Hk; ring).
  destruct (f_integral _ _ Hz) as [Hz'|Hz']; [exfalso; exact (root_ne_zero l k Hl Hz')|exact Hz'].
Qed.

Section Len.
Variable len : nat.
Hypothesis Hlen : hist_ok len = true.

(** *** which inputs satisfy both checks *)
Fixpoint ones (x : list fld) : nat := match x with [] => 0 | a :: x' => (if feqb a fone then 1 else 0) + ones x' end.
Lemma ones_sum x : (forall i, nth i x fzero = fzero \/ nth i x fzero = fone) -> sum_f x = of_nat (ones x) /\ ones x <= length x.
Proof.
  induction x as [|a x IH]; intros H; [split; [reflexivity|cbn; lia]|]. destruct (IH (fun i => H (S i))) as [E L]. unfold sum_f in *. cbn [fold_right ones length]. rewrite E.
  destruct (H 0) as [Ha|Ha]; cbn [nth] in Ha; subst a.
  - change (feqb fzero fone) with false. split; [cbn [Nat.add]; ring|lia].
  - change (feqb fone fone) with true. rewrite of_nat_add. change (of_nat 1) with fone. split; [reflexivity|lia].
Qed.
Lemma ones_zero x : (forall i, nth i x fzero = fzero \/ nth i x fzero = fone) -> ones x = 0 -> forall i, nth i x fzero = fzero.
Proof.
  induction x as [|a x IH]; intros H Ho i; [destruct i; reflexivity|]. cbn [ones] in Ho. destruct (H 0) as [Ha|Ha]; cbn [nth] in Ha; subst a.
  - change (feqb fzero fone) with false in Ho. destruct i as [|i]; [reflexivity|]. apply (IH (fun i => H (S i))). exact Ho.
  - change (feqb fone fone) with true in Ho. cbv iota in Ho. lia.
Qed.
Lemma ones_one x : (forall i, nth i x fzero = fzero \/ nth i x fzero = fone) -> ones x = 1 ->
  exists m, m < length x /\ forall i, nth i x fzero = if i =? m then fone else fzero.
Proof.
  induction x as [|a x IH]; intros H Ho; [discriminate|]. cbn [ones] in Ho. destruct (H 0) as [Ha|Ha]; cbn [nth] in Ha; subst a.
  - change (feqb fzero fone) with false in Ho. destruct (IH (fun i => H (S i)) Ho) as (m & Hm & Hi). exists (S m). split; [cbn; lia|].
    intros [|i]; [reflexivity|apply Hi].
  - change (feqb fone fone) with true in Ho. exists 0. split; [cbn; lia|]. intros [|i]; [reflexivity|]. cbn [nth Nat.eqb]. apply (ones_zero _ (fun i => H (S i))). cbv iota in Ho. lia.
Qed.
Lemma of_nat_one n : (Z.of_nat n < P)%Z -> of_nat n = fone -> n = 1.
Proof. intros Hn H. apply (f_equal fval) in H. unfold of_nat, fone in H. rewrite !fval_of_Z in H. change (1 mod P)%Z with 1%Z in H. rewrite Z.mod_small in H by lia. lia. Qed.
Lemma checks_unit x : length x = len -> (forall i, i < len -> fmul (nth i x fzero) (fsub (nth i x fzero) fone) = fzero) -> sum_f x = fone -> unit_vector len x.
Proof.
  intros Hx Hr Hs. assert (H : forall i, nth i x fzero = fzero \/ nth i x fzero = fone).
  { intros i. destruct (le_lt_dec len i) as [Hi|Hi]; [left; apply nth_overflow; lia|]. destruct (f_integral _ _ (Hr i Hi)) as [Hz|Hz]; [left; exact Hz|right; apply fsub_zero; exact Hz]. }
  destruct (ones_sum x H) as [E L]. rewrite Hs in E. apply hist_ok_bound in Hlen.
  assert (Ho : ones x = 1). { apply of_nat_one; [|symmetry; exact E]. assert (2 ^ 32 < P)%Z by reflexivity. lia. }
  destruct (ones_one x H Ho) as (m & Hm & Hi). split; [exact Hx|]. exists m. split; [lia|]. intros i _. apply Hi.
Qed.
Definition range_poly (x : list fld) : list fld := fzero :: map (fun i => fmul (nth i x fzero) (fsub (nth i x fzero) fone)) (seq 0 len).
Lemma range_eval x j0 : poly_eval (range_poly x) j0 = big len (fun i => fmul (fpow j0 (i + 1)) (fmul (nth i x fzero) (fsub (nth i x fzero) fone))).
Proof.
  unfold range_poly. cbn [poly_eval]. rewrite (eval_big _ len) by (rewrite map_length, seq_length; lia).
  rewrite <- big_scale. transitivity (big len (fun i => fmul j0 (fmul (nth i (map (fun i => fmul (nth i x fzero) (fsub (nth i x fzero) fone)) (seq 0 len)) fzero) (fpow j0 i)))); [ring|].
  apply big_ext. intros i Hi. rewrite (nth_map_seq (fun i => fmul (nth i x fzero) (fsub (nth i x fzero) fone))) by exact Hi.
  replace (i + 1) with (S i) by lia. cbn [fpow]. ring.
Qed.
(** the pairs of joint randomness for which the circuit misses an invalid input *)
Lemma blind_pairs x A B T : length x = len -> ~ unit_vector len x -> NoDup A -> NoDup B -> NoDup T ->
  (forall j0 j1, In (j0, j1) T -> In j0 A /\ In j1 B /\ circuit len x j0 j1 = fzero) -> length T <= len * length B + 2 * length A.
Proof.
  intros Hx Hu HA HB HT H. pose proof (hist_ok_bound len Hlen) as [Hpos _].
  destruct (f_dec (sum_f x) fone) as [Hs|Hs].
  - (* the range check is a non-zero polynomial in j0 *)
    assert (Hr : exists y, poly_eval (range_poly x) y <> fzero).
    { destruct (existsb (fun i => negb (feqb (fmul (nth i x fzero) (fsub (nth i x fzero) fone)) fzero)) (seq 0 len)) eqn:Ex.
      - apply existsb_exists in Ex. destruct Ex as (i & Hi & Hne). apply in_seq in Hi. apply negb_true_iff in Hne.
        destruct (existsb (fun y => negb (feqb (poly_eval (range_poly x) y) fzero)) (map (fpow (root (Nat.log2_up (len + 1)))) (seq 0 (2 ^ (Nat.log2_up (len + 1)))))) eqn:Ey.
        + apply existsb_exists in Ey. destruct Ey as (y & _ & Hy). exists y. intros Hz. rewrite Hz in Hy. discriminate Hy.
        + exfalso. assert (Hw : Nat.log2_up (len + 1) <= 33).
          { apply log2_up_small; [lia|]. pose proof (hist_ok_bound len Hlen) as [_ Hb]. change (2 ^ Z.of_nat 33)%Z with (2 ^ 32 + 2 ^ 32)%Z. lia. }
          assert (Hsz : length (range_poly x) <= 2 ^ Nat.log2_up (len + 1)).
          { unfold range_poly. cbn [length]. rewrite map_length, seq_length. destruct (Nat.log2_up_spec (len + 1) ltac:(lia)) as [_ Hs2]. lia. }
          assert (Hz : forall y, poly_eval (range_poly x) y = fzero).
          { apply (roots_zero (map (fpow (root (Nat.log2_up (len + 1)))) (seq 0 (2 ^ (Nat.log2_up (len + 1)))))); [apply domain_nodup; lia|rewrite map_length, seq_length; exact Hsz|].
            intros r Hr. destruct (f_dec (poly_eval (range_poly x) r) fzero) as [Hz|Hz]; [exact Hz|exfalso].
            assert (Ht : existsb (fun y => negb (feqb (poly_eval (range_poly x) y) fzero)) (map (fpow (root (Nat.log2_up (len + 1)))) (seq 0 (2 ^ (Nat.log2_up (len + 1))))) = true).
            { apply existsb_exists. exists r. split; [exact Hr|]. apply negb_true_iff, not_true_iff_false. rewrite feqb_eq. exact Hz. }
            congruence. }
          pose proof (vanishing (Nat.log2_up (len + 1)) (range_poly x) ltac:(lia) Hsz Hz (S i)) as Hi0. unfold range_poly in Hi0. cbn [nth] in Hi0.
          rewrite (nth_map_seq (fun i => fmul (nth i x fzero) (fsub (nth i x fzero) fone))) in Hi0 by lia. rewrite Hi0 in Hne. discriminate Hne.
      - exfalso. apply Hu. apply checks_unit; [exact Hx| |exact Hs]. intros i Hi. apply feqb_eq. apply negb_false_iff.
        apply not_true_iff_false. intros Ht. assert (Hc : existsb (fun i => negb (feqb (fmul (nth i x fzero) (fsub (nth i x fzero) fone)) fzero)) (seq 0 len) = true); [|congruence].
        apply existsb_exists. exists i. split; [apply in_seq; lia|exact Ht]. }
    set (f := fun t : fld * fld => feqb (snd t) fzero).
    rewrite (split_count f T).
    assert (H1 : length (filter f T) <= length A).
    { rewrite <- (map_length fst). apply NoDup_incl_length.
      - apply NoDup_map_in; [|apply NoDup_filter, HT]. intros [a b] [a' b'] Ha Hb Hab. apply filter_In in Ha, Hb. unfold f in *. cbn [fst snd] in *.
        destruct Ha as [_ Ha], Hb as [_ Hb]. apply feqb_eq in Ha, Hb. congruence.
      - intros a Ha. apply in_map_iff in Ha. destruct Ha as ([a' b] & <- & Hin). apply filter_In in Hin. apply (H a' b). tauto. }
    assert (H2 : length (filter (fun t => negb (f t)) T) <= len * length B).
    { rewrite <- (map_length (fun t : fld * fld => (snd t, fst t))). apply (fibres f_dec).
      - apply NoDup_map_in; [|apply NoDup_filter, HT]. intros [a b] [a' b'] _ _ Hab. cbn [fst snd] in Hab. congruence.
      - intros t Ht. apply in_map_iff in Ht. destruct Ht as ([a b] & <- & Hin). apply filter_In in Hin. cbn [fst snd]. apply (H a b). tauto.
      - intros b S _ HS Hin. assert (Hl : length S < length (range_poly x)); [|unfold range_poly in Hl; cbn [length] in Hl; rewrite map_length, seq_length in Hl; lia].
        apply few_roots; [exact HS| |exact Hr]. intros a Ha. apply Hin in Ha. apply in_map_iff in Ha. destruct Ha as ([a' b'] & Hab & Hf). cbn [fst snd] in Hab. injection Hab as -> ->.
        apply filter_In in Hf. destruct Hf as [Hf Hb0]. unfold f in Hb0. cbn [snd] in Hb0. apply negb_true_iff in Hb0.
        destruct (H _ _ Hf) as (_ & _ & Hc). unfold circuit in Hc. rewrite Hs, <- range_eval in Hc.
        assert (Hz : fmul b (poly_eval (range_poly x) a) = fzero) by (rewrite <- Hc; ring).
        destruct (f_integral _ _ Hz) as [Hz'|Hz']; [rewrite Hz' in Hb0; discriminate Hb0|exact Hz']. }
    lia.
  - (* the circuit is a non-zero polynomial in j1 *)
    assert (H1 : length T <= 2 * length A); [|lia].
    apply (fibres f_dec); [exact HT|intros [a b] Ht; apply (H a b Ht)|].
    intros a S _ HS Hin. set (q := [fzero; poly_eval (range_poly x) a; fsub (sum_f x) fone]).
    assert (Hq : forall b, poly_eval q b = circuit len x a b) by (intros b; unfold q, circuit; cbn [poly_eval]; rewrite range_eval; ring).
    assert (Hl : length S < length q); [|cbn in Hl; lia].
    apply few_roots; [exact HS|intros b Hb; rewrite Hq; apply (H a b), Hin, Hb|].
    destruct (f_dec (poly_eval q fone) fzero) as [Ha|Ha]; [|exists fone; exact Ha].
    exists (fneg fone). intros Hb. apply Hs. apply fsub_zero.
    unfold q in Ha, Hb. cbn [poly_eval] in Ha, Hb. set (s := fsub (sum_f x) fone) in *. set (c := poly_eval (range_poly x) a) in *.
    assert (Hz : fmul (of_Z 2) s = fzero).
    { change (of_Z 2) with (fadd fone fone). transitivity (fadd (fadd fzero (fmul fone (fadd c (fmul fone (fadd s (fmul fone fzero)))))) (fadd fzero (fmul (fneg fone) (fadd c (fmul (fneg fone) (fadd s (fmul (fneg fone) fzero))))))); [ring|]. rewrite Ha, Hb. ring. }
    destruct (f_integral _ _ Hz) as [Hz'|Hz']; [apply (f_equal fval) in Hz'; discriminate Hz'|exact Hz'].
Qed.

End Len.

Section Chunk.
Variable c len : nat.
Hypothesis Hc : 0 < c.
Hypothesis Hlen : hist_ok len = true.
(** for joint randomness that does not miss the input, few query points accept *)
Lemma few_points x proof j0 j1 S : circuit len x j0 j1 <> fzero -> NoDup S -> (forall r, In r S -> accepted c len x proof j0 j1 r) -> length S <= 2 * (2 ^ wire_log c len - 1).
Proof.
  intros Hne HS H. destruct S as [|r0 S]; [cbn; lia|].
  destruct (H r0 (or_introl eq_refl)) as (x0 & x1 & p0 & p1 & Sx & Sp & Hd). apply (decides_iff c len Hc Hlen _ _ _ _ _ _ _ _ _ _ Sx Sp) in Hd.
  destruct Hd as (Hx & Hp & _ & Ho). rewrite (outcome_eq c len) in Ho by assumption. symmetry in Ho. apply andb_true_iff in Ho. destruct Ho as [Hv _]. apply feqb_eq in Hv.
  set (G := gadget_poly c len (firstn (arity c) proof) x j0) in *. set (p := skipn (arity c) proof) in *.
  assert (Hlp : length p = gadget_poly_len c len) by (unfold p; rewrite skipn_length, Hp; unfold proof_len; lia).
  set (q := poly_add p (map fneg G)).
  assert (Hlq : length q = gadget_poly_len c len) by (unfold q; rewrite add_length, map_length, Hlp; unfold G; rewrite gadget_poly_length; lia).
  assert (Hev : forall y, poly_eval q y = fsub (poly_eval p y) (poly_eval G y)) by (intros y; unfold q; rewrite eval_add, eval_neg; ring).
  assert (Hl : length (r0 :: S) < length q); [|rewrite Hlq in Hl; unfold gadget_poly_len in Hl; lia].
  apply few_roots; [exact HS| |].
  - intros r Hr. destruct (H r Hr) as (y0 & y1 & q0 & q1 & Sy & Sq & Hd). apply (decides_iff c len Hc Hlen _ _ _ _ _ _ _ _ _ _ Sy Sq) in Hd.
    destruct Hd as (_ & _ & _ & Ho). rewrite (outcome_eq c len) in Ho by assumption. symmetry in Ho. apply andb_true_iff in Ho. destruct Ho as [_ Hg]. apply feqb_eq in Hg.
    rewrite Hev. fold G p in Hg. rewrite Hg. ring.
  - (* otherwise the circuit would be zero *)
    destruct (existsb (fun k => negb (feqb (poly_eval q (fpow (root (wire_log c len)) (k + 1))) fzero)) (seq 0 (ncalls c len))) eqn:Ex.
    + apply existsb_exists in Ex. destruct Ex as (k & _ & Hk). exists (fpow (root (wire_log c len)) (k + 1)). intros Hz. rewrite Hz in Hk. discriminate Hk.
    + exfalso. apply Hne. rewrite <- Hv. symmetry. apply (valid_circuit c len Hc Hlen (firstn (arity c) proof)); [exact Hx|].
      intros k Hk. apply fsub_zero. fold G. rewrite <- Hev. destruct (f_dec (poly_eval q (fpow (root (wire_log c len)) (k + 1))) fzero) as [Hz|Hz]; [exact Hz|exfalso].
      assert (Ht : existsb (fun k => negb (feqb (poly_eval q (fpow (root (wire_log c len)) (k + 1))) fzero)) (seq 0 (ncalls c len)) = true); [|congruence].
      apply existsb_exists. exists k. split; [apply in_seq; lia|]. apply negb_true_iff, not_true_iff_false. rewrite feqb_eq. exact Hz.
Qed.

Lemma pair_dec (a b : fld * fld) : {a = b} + {a <> b}.
Proof. decide equality; apply f_dec. Qed.

Lemma sound x (proof : fld -> fld -> list fld) A B C T : length x = len -> ~ unit_vector len x -> NoDup A -> NoDup B -> NoDup C -> NoDup T ->
  (forall j0 j1 r, In (j0, j1, r) T -> In j0 A /\ In j1 B /\ In r C /\ accepted c len x (proof j0 j1) j0 j1 r) ->
  length T <= (len * length B + 2 * length A) * length C + 2 * (2 ^ wire_log c len - 1) * (length A * length B).
Proof.
  intros Hx Hu HA HB HC HT H.
  set (f := fun t : fld * fld * fld => feqb (circuit len x (fst (fst t)) (snd (fst t))) fzero).
  rewrite (split_count f T).
  assert (H1 : length (filter f T) <= (len * length B + 2 * length A) * length C).
  { set (U := nodup pair_dec (map fst (filter f T))).
    assert (HU : length U <= len * length B + 2 * length A).
    { apply (blind_pairs len Hlen x); try assumption; [apply NoDup_nodup|]. intros j0 j1 Hin. unfold U in Hin. apply nodup_In, in_map_iff in Hin.
      destruct Hin as ([[a b] r] & Hab & Hin). cbn [fst] in Hab. injection Hab as -> ->. apply filter_In in Hin. destruct Hin as [Hin Hf]. unfold f in Hf. cbn [fst snd] in Hf. apply feqb_eq in Hf.
      destruct (H _ _ _ Hin) as (Ha & Hb & _). auto. }
    assert (Hin : length (filter f T) <= length (list_prod U C)).
    { apply NoDup_incl_length; [apply NoDup_filter, HT|]. intros [[a b] r] Hin. apply in_prod_iff. split.
      - unfold U. apply nodup_In, in_map_iff. exists (a, b, r). auto.
      - apply filter_In in Hin. apply (H a b r). tauto. }
    rewrite prod_length in Hin. nia. }
  assert (H2 : length (filter (fun t => negb (f t)) T) <= 2 * (2 ^ wire_log c len - 1) * (length A * length B)).
  { rewrite <- prod_length. apply (fibres pair_dec); [apply NoDup_filter, HT| |].
    - intros [[a b] r] Hin. apply filter_In in Hin. cbn [fst]. apply in_prod_iff. destruct (H a b r) as (Ha & Hb & _); [tauto|auto].
    - intros [a b] S _ HS Hin. destruct S as [|r0 S]; [cbn [length]; lia|]. apply (few_points x (proof a b) a b); [|exact HS|].
      + pose proof (Hin r0 (or_introl eq_refl)) as Hf. apply filter_In in Hf. destruct Hf as [_ Hf]. unfold f in Hf. cbn [fst snd] in Hf. intros Hz. rewrite Hz in Hf. discriminate Hf.
      + intros r Hr. apply Hin in Hr. apply filter_In in Hr. apply (H a b r). tauto. }
  lia.
Qed.
End Chunk.

(** *** the bounds in closed form *)
Lemma wire_small c len : 0 < c -> hist_ok len = true -> 2 ^ wire_log c len <= 2 * ncalls c len.
Proof.
  intros Hc Hlen. pose proof (ncalls_pos c len Hc (proj1 (hist_ok_bound len Hlen))) as Hn. unfold wire_log. set (n := ncalls c len) in *.
  destruct (Nat.log2_up_spec (1 + n) ltac:(lia)) as [Ha _].
  assert (Hp : 0 < Nat.log2_up (1 + n)) by (apply Nat.log2_up_pos; lia).
  destruct (Nat.log2_up (1 + n)) as [|k]; [lia|]. cbn [pred] in Ha. rewrite Nat.pow_succ_r'. lia.
Qed.
Theorem sound_bound c len x (proof : fld -> fld -> list fld) A B C T : 0 < c -> hist_ok len = true -> length x = len -> ~ unit_vector len x ->
  NoDup A -> NoDup B -> NoDup C -> NoDup T ->
  (forall j0 j1 r, In (j0, j1, r) T -> In j0 A /\ In j1 B /\ In r C /\ accepted c len x (proof j0 j1) j0 j1 r) ->
  length T <= len * (length B * length C) + 2 * (length A * length C) + 2 * (2 * ((len + c - 1) / c) - 1) * (length A * length B).
Proof.
  intros Hc Hlen Hx Hu HA HB HC HT H. pose proof (sound c len Hc Hlen x proof A B C T Hx Hu HA HB HC HT H) as Hs.
  pose proof (wire_small c len Hc Hlen) as Hw. unfold ncalls in Hw. set (n := (len + c - 1) / c) in *.
  assert (Hm : 2 * (2 ^ wire_log c len - 1) * (length A * length B) <= 2 * (2 * n - 1) * (length A * length B)) by (apply Nat.mul_le_mono_r; lia).
  rewrite Nat.mul_add_distr_r in Hs. rewrite <- !Nat.mul_assoc in Hs. rewrite <- !Nat.mul_assoc in Hm |- *. lia.
Qed.
Theorem spoilt_few c len x pr j0 j1 proof d S : 0 < c -> hist_ok len = true -> unit_vector len x -> hist_prove c len x pr [j0; j1] = Some proof -> nth 1 pr fzero <> fzero -> d <> fzero ->
  NoDup S -> (forall r, In r S -> exists a t, proof = a :: t /\ accepted c len x (fadd a d :: t) j0 j1 r) -> length S <= 2 * ((len + c - 1) / c) - 1.
Proof.
  intros Hc Hlen Hu Hp Hpr Hd HS H. set (w := wire_poly c len pr x j0 1).
  pose proof (second_wire_exists c len Hc Hlen pr x j0) as Hw. fold w in Hw. pose proof Hw as (Lw & W1 & _).
  assert (Hlt : length S < length w).
  { apply few_roots; [exact HS| |exists fone; rewrite W1; exact Hpr]. intros r Hr. destruct (H r Hr) as (a & t & Ep & x0 & x1 & p0 & p1 & Sx & Sp & Hdec).
    assert (Hdom : ~ on_domain c len r) by (apply (decides_iff c len Hc Hlen x0 x1 x p0 p1 _ r j0 j1 true Sx Sp) in Hdec; apply Hdec).
    pose proof (spoilt c len Hc Hlen x pr j0 j1 r proof d w x0 x1 p0 p1 _ Hu Hp Hdom Hd Hw Sx Sp (ex_intro _ a (ex_intro _ t (conj Ep eq_refl)))) as Hsp.
    destruct Hdec as (v0 & v1 & Q0 & Q1 & D). destruct Hsp as (v0' & v1' & Q0' & Q1' & D'). rewrite Q0 in Q0'. rewrite Q1 in Q1'. injection Q0' as <-. injection Q1' as <-.
    rewrite D in D'. injection D' as D'. symmetry in D'. apply feqb_eq in D'. exact D'. }
  pose proof (wire_small c len Hc Hlen) as Hb. unfold ncalls in Hb. lia.
Qed.
