(** The two aggregators' trees side by side (C04, C05). *)
From Verif Require Import Base BaseFacts Field Util UtilFacts Env Prg PrgFacts PrgSpecFacts PrgSpecFacts2 Vidpf SpecPrg SpecVidpf SpecTree
  VidpfFacts VidpfEvalFacts VidpfTreeFacts.

Definition enc_vec (x : list fld) : bytes := concat (map get_encoded x).
Lemma enc_vec_length x : length (enc_vec x) = 16 * length x.
Proof.
  unfold enc_vec. induction x as [|a x IH]; [reflexivity|]. cbn [map concat length]. rewrite app_length, IH, get_encoded_length. lia.
Qed.
Lemma app_inj_len {A} (a b c d : list A) : length a = length c -> a ++ b = c ++ d -> a = c /\ b = d.
Proof.
  revert c. induction a as [|x a IH]; intros [|y c] Hl H; cbn in *; try discriminate; [auto|].
  injection H as -> H. destruct (IH c) as [-> ->]; auto.
Qed.
Lemma enc_vec_inj x : forall y, length x = length y -> enc_vec x = enc_vec y -> x = y.
Proof.
  unfold enc_vec. induction x as [|a x IH]; intros [|b y] Hl H; cbn [length map concat] in *; try discriminate; [reflexivity|].
  apply app_inj_len in H; [|rewrite !get_encoded_length; reflexivity]. destruct H as [H1 H2].
  apply get_encoded_inj in H1. subst b. f_equal. apply IH; [lia|exact H2].
Qed.

Section Pair.
Variable E : env.
Hypothesis Hok : env_ok E.
Variables k0 k1 : vidpf_key.
Variable len : nat.
Hypothesis Hty0 : key_typed k0.
Hypothesis Hty1 : key_typed k1.
Notation nwf0 := (nwf E k0 len). Notation nwf1 := (nwf E k1 len).

(** same shape / same shape and same recorded checks *)
Fixpoint shp (n0 n1 : enode) : Prop :=
  let '(ENode _ _ _ _ l0 r0) := n0 in let '(ENode _ _ _ _ l1 r1) := n1 in
  match l0, r0, l1, r1 with
  | None, None, None, None => True
  | Some a0, Some b0, Some a1, Some b1 => shp a0 a1 /\ shp b0 b1
  | _, _, _, _ => False
  end.
Fixpoint same (n0 n1 : enode) : Prop :=
  let '(ENode _ _ p0 _ l0 r0) := n0 in let '(ENode _ _ p1 _ l1 r1) := n1 in
  p0 = p1 /\
  match l0, r0, l1, r1 with
  | None, None, None, None => True
  | Some a0, Some b0, Some a1, Some b1 => same a0 a1 /\ same b0 b1
  | _, _, _, _ => False
  end.

Lemma evals_none k p st w : evals E k len p st w -> (w = None <-> p = []).
Proof.
  intros H. apply evals_inv in H. destruct H as [(-> & _ & ->)|(q & d & ? & ? & ? & -> & _ & _ & ->)]; split; auto; try discriminate.
  destruct q; discriminate.
Qed.

(** the check of an interior node, as a value *)
Definition check (k : vidpf_key) (x xl xr : list fld) : list fld := sgn k (vec_sub (vec_sub x xl) xr).

(** nodes strictly above the end of [path], walked from [p] *)
Definition between (p path q : list bool) : Prop := exists u s, s <> [] /\ path = u ++ s /\ q = p ++ u.
Definition agree (S : list bool -> Prop) : Prop :=
  forall q s0 x0 sl0 l0 sr0 r0 s1 x1 sl1 l1 sr1 r1, S q ->
    evals E k0 len q s0 (Some x0) -> evals E k0 len (q ++ [false]) sl0 (Some l0) -> evals E k0 len (q ++ [true]) sr0 (Some r0) ->
    evals E k1 len q s1 (Some x1) -> evals E k1 len (q ++ [false]) sl1 (Some l1) -> evals E k1 len (q ++ [true]) sr1 (Some r1) ->
    check k0 x0 l0 r0 = check k1 x1 l1 r1.

Lemma nwf_pc k p bs w pc st ln rn : key_typed k -> nwf E k len p (ENode bs w pc st (Some ln) (Some rn)) ->
  (p = [] /\ w = None /\ pc = None) \/
  (exists x xl xr, p <> [] /\ w = Some x /\ evals E k len p st (Some x) /\
     evals E k len (p ++ [false]) (n_state ln) (Some xl) /\ evals E k len (p ++ [true]) (n_state rn) (Some xr) /\
     n_word ln = Some xl /\ n_word rn = Some xr /\
     pc = Some (check k x xl xr) /\ length (check k x xl xr) = len + 1).
Proof.
  intros Hty H. cbn [nwf] in H. destruct H as (_ & He & Hl & Hr & Hc). pose proof (evals_none _ _ _ _ He) as Hn.
  pose proof (nwf_evals _ _ _ _ _ Hl) as Hel. pose proof (nwf_evals _ _ _ _ _ Hr) as Her.
  destruct w as [x|]; [right|left; intuition].
  destruct (n_word ln) as [xl|]; [|contradiction]. destruct (n_word rn) as [xr|]; [|contradiction].
  exists x, xl, xr. assert (p <> []) by (intros Hx; apply Hn in Hx; discriminate).
  repeat split; auto. unfold check. rewrite sgn_length, !vec_sub_length.
  apply (evals_typed E Hok k len Hty) in He. apply He; reflexivity.
Qed.

Lemma same_shp : forall n0 n1, same n0 n1 -> shp n0 n1.
Proof.
  fix IH 1. intros [b0 w0 p0 s0 l0 r0] [b1 w1 p1 s1 l1 r1]. cbn. intros [_ H].
  destruct l0 as [a0|], r0 as [c0|], l1 as [a1|], r1 as [c1|]; try contradiction; [|exact I].
  destruct H. split; apply IH; assumption.
Qed.

Definition opened (n : enode) (q : list bool) : Prop := node_at n q <> None.

Lemma traverse_pair path : forall p n0 n1 t0 t1 n0' m0 t0' n1' m1 t1',
  nwf0 p n0 -> nwf1 p n1 -> shp n0 n1 ->
  traverse E k0 len path n0 t0 = Ret (n0', m0, t0') -> traverse E k1 len path n1 t1 = Ret (n1', m1, t1') ->
  nwf0 p n0' /\ nwf1 p n1' /\ shp n0' n1' /\
  node_at n0' path = Some m0 /\ node_at n1' path = Some m1 /\
  n_word n0' = n_word n0 /\ n_word n1' = n_word n1 /\
  (forall q, opened n0 q -> opened n0' q) /\
  exists c0 c1, t0' = t0 ++ c0 /\ t1' = t1 ++ c1 /\ length c0 = length c1 /\
    (same n0 n1 -> c0 = c1 -> same n0' n1') /\
    (agree (between p path) -> c0 = c1).
Proof.
  induction path as [|b path IH]; intros p n0 n1 t0 t1 n0' m0 t0' n1' m1 t1' Hw0 Hw1 Hs Ht0 Ht1.
  - cbn [traverse] in Ht0, Ht1. injection Ht0 as <- <- <-. injection Ht1 as <- <- <-.
    repeat (split; [solve [assumption|reflexivity|auto]|]).
    exists [], []. rewrite !app_nil_r. repeat split; auto.
  - destruct n0 as [bs0 w0 pc0 st0 l0 r0], n1 as [bs1 w1 pc1 st1 l1 r1].
    destruct (traverse_step _ _ _ _ _ _ _ _ _ _ _ _ _ _ Hw0 Ht0) as
      (ln0 & rn0 & ch0 & pc0' & c0' & re0 & tr0' & Hn0 & HL0 & HR0 & _ & Hch0 & Hpc0 & Hlf0 & Hrec0 & Heq0).
    destruct (traverse_step _ _ _ _ _ _ _ _ _ _ _ _ _ _ Hw1 Ht1) as
      (ln1 & rn1 & ch1 & pc1' & c1' & re1 & tr1' & Hn1 & HL1 & HR1 & _ & Hch1 & Hpc1 & Hlf1 & Hrec1 & Heq1).
    injection Heq0 as -> -> ->. injection Heq1 as -> -> ->.
    pose proof Hn0 as Hn0'. pose proof Hn1 as Hn1'. cbn [nwf] in Hn0', Hn1'.
    destruct Hn0' as (Hbs0 & He0 & Hl0 & Hr0 & Hx0). destruct Hn1' as (Hbs1 & He1 & Hl1 & Hr1 & Hx1).
    (* shape of the opened children *)
    assert (Hsl : shp ln0 ln1 /\ shp rn0 rn1 /\ (l0 = None <-> l1 = None) /\
                  (same (ENode bs0 w0 pc0 st0 l0 r0) (ENode bs1 w1 pc1 st1 l1 r1) -> same ln0 ln1 /\ same rn0 rn1 /\ (l0 <> None -> pc0' = pc1'))).
    { cbn [shp same] in Hs |- *. cbn [nwf] in Hw0, Hw1.
      destruct l0 as [a0|], r0 as [b0|], l1 as [a1|], r1 as [b1|]; try contradiction.
      - rewrite (HL0 _ eq_refl), (HR0 _ eq_refl), (HL1 _ eq_refl), (HR1 _ eq_refl). destruct Hs as [Hsa Hsb].
        rewrite (Hpc0 ltac:(discriminate)), (Hpc1 ltac:(discriminate)).
        split; [exact Hsa|]. split; [exact Hsb|]. split; [split; discriminate|].
        intros (Hp & Ha & Hb). auto.
      - destruct (Hlf0 eq_refl) as [(? & ? & ? & ->) (? & ? & ? & ->)]. destruct (Hlf1 eq_refl) as [(? & ? & ? & ->) (? & ? & ? & ->)].
        cbn. intuition. }
    destruct Hsl as (HsL & HsR & Hiff & Hsame).
    assert (Hchunk : length ch0 = length ch1 /\
      (same (ENode bs0 w0 pc0 st0 l0 r0) (ENode bs1 w1 pc1 st1 l1 r1) -> ch0 = ch1 -> pc0' = pc1') /\
      (agree (fun q => q = p) -> ch0 = ch1)).
    { destruct (nwf_pc _ _ _ _ _ _ _ _ Hty0 Hn0) as [(Hp0 & Hw0' & Hc0)|(x0 & xl0 & xr0 & Hp0 & Hw0' & Hex0 & Hexl0 & Hexr0 & _ & _ & Hc0 & Hcl0)].
      - (* the root: nothing is checked *)
        destruct (nwf_pc _ _ _ _ _ _ _ _ Hty1 Hn1) as [(Hp1 & Hw1' & Hc1)|(x1 & xl1 & xr1 & Hp1 & _)]; [|contradiction].
        assert (Hch0' : ch0 = []) by (rewrite Hch0, Hc0; destruct l0; reflexivity).
        assert (Hch1' : ch1 = []) by (rewrite Hch1, Hc1; destruct l1; reflexivity).
        rewrite Hch0', Hch1', Hc0, Hc1. auto.
      - destruct (nwf_pc _ _ _ _ _ _ _ _ Hty1 Hn1) as [(Hp1 & Hw1' & Hc1)|(x1 & xl1 & xr1 & Hp1 & Hw1' & Hex1 & Hexl1 & Hexr1 & _ & _ & Hc1 & Hcl1)]; [contradiction|].
        destruct l0 as [a0|].
        + destruct l1 as [a1|]; [|destruct Hiff as [_ Hi]; discriminate (Hi eq_refl)].
          rewrite Hch0, Hch1. split; [reflexivity|]. split; [|reflexivity]. intros Hsm _. apply Hsame; [exact Hsm|discriminate].
        + destruct l1 as [a1|]; [destruct Hiff as [Hi _]; discriminate (Hi eq_refl)|].
          rewrite Hc0 in Hch0. rewrite Hc1 in Hch1. fold (enc_vec (check k0 x0 xl0 xr0)) in Hch0. fold (enc_vec (check k1 x1 xl1 xr1)) in Hch1.
          split; [rewrite Hch0, Hch1, !enc_vec_length; lia|]. split.
          * intros _ Heq. rewrite Hch0, Hch1 in Heq. apply enc_vec_inj in Heq; [|lia]. congruence.
          * intros Hag. rewrite Hch0, Hch1. f_equal. eapply Hag; try eassumption. reflexivity. }
    destruct Hchunk as (Hclen & Hcsame & Hcag).
    assert (Hsub : nwf0 (p ++ [b]) (if b then rn0 else ln0)) by (destruct b; assumption).
    assert (Hsub1 : nwf1 (p ++ [b]) (if b then rn1 else ln1)) by (destruct b; assumption).
    assert (Hsubs : shp (if b then rn0 else ln0) (if b then rn1 else ln1)) by (destruct b; assumption).
    destruct (IH _ _ _ _ _ _ _ _ _ _ _ Hsub Hsub1 Hsubs Hrec0 Hrec1) as
      (Hi0 & Hi1 & His & Hia0 & Hia1 & Hiw0 & Hiw1 & Hio & c0 & c1 & Htt0 & Htt1 & Hcl & Hisame & Hiag).
    assert (Hopen : forall q, opened (ENode bs0 w0 pc0 st0 l0 r0) q ->
                              opened (ENode bs0 w0 pc0' st0 (Some (if b then ln0 else c0')) (Some (if b then c0' else rn0))) q).
    { intros [|d q]; unfold opened; cbn [node_at]; [discriminate|].
      intros Hq. destruct d.
      - destruct r0 as [b0|]; [|contradiction]. rewrite <- (HR0 _ eq_refl) in Hq. destruct b; [apply Hio; exact Hq|exact Hq].
      - destruct l0 as [a0|]; [|contradiction]. rewrite <- (HL0 _ eq_refl) in Hq. destruct b; [exact Hq|apply Hio; exact Hq]. }
    split.
    { cbn [nwf]. split; [exact Hbs0|]. split; [exact He0|].
      destruct b; (split; [assumption|]); (split; [assumption|]); rewrite Hiw0; exact Hx0. }
    split.
    { cbn [nwf]. split; [exact Hbs1|]. split; [exact He1|].
      destruct b; (split; [assumption|]); (split; [assumption|]); rewrite Hiw1; exact Hx1. }
    split; [cbn [shp]; destruct b; split; assumption|].
    split; [cbn [node_at]; destruct b; exact Hia0|]. split; [cbn [node_at]; destruct b; exact Hia1|].
    split; [reflexivity|]. split; [reflexivity|]. split; [exact Hopen|].
    exists (ch0 ++ c0), (ch1 ++ c1). rewrite !app_assoc. split; [exact Htt0|]. split; [exact Htt1|].
    split; [rewrite !app_length; lia|]. split.
    + intros Hsm Heq. apply app_inj_len in Heq; [|exact Hclen]. destruct Heq as [Heq1 Heq2].
      destruct (Hsame Hsm) as (HSL & HSR & _). cbn [same]. split; [apply Hcsame; assumption|].
      destruct b; split; auto.
    + intros Hag. rewrite Hcag; [rewrite Hiag; [reflexivity|]|].
      * intros q ? ? ? ? ? ? ? ? ? ? ? ? (u & s & Hs' & Hu & Hq). apply Hag. exists (b :: u), s. split; [exact Hs'|]. split; [cbn [app]; rewrite Hu; reflexivity|]. rewrite Hq, <- app_assoc. reflexivity.
      * intros q ? ? ? ? ? ? ? ? ? ? ? ? Hq. apply Hag. exists [], (b :: path). split; [discriminate|]. split; [reflexivity|]. rewrite app_nil_r. exact Hq.
Qed.

(** *** eval_paths *)
Lemma eval_paths_pair paths : forall n0 n1 t0 t1 n0' v0 t0' n1' v1 t1',
  nwf0 [] n0 -> nwf1 [] n1 -> shp n0 n1 ->
  eval_paths E k0 len paths n0 t0 = Ret (n0', v0, t0') -> eval_paths E k1 len paths n1 t1 = Ret (n1', v1, t1') ->
  nwf0 [] n0' /\ nwf1 [] n1' /\ shp n0' n1' /\ (forall q, opened n0 q -> opened n0' q) /\
  (forall path, In path paths -> opened n0' path /\ path <> []) /\
  (exists sts0 sts1,
     Forall2 (fun path sv => evals E k0 len path (fst sv) (Some (snd sv))) paths (combine sts0 v0) /\
     Forall2 (fun path sv => evals E k1 len path (fst sv) (Some (snd sv))) paths (combine sts1 v1) /\
     length sts0 = length v0 /\ length sts1 = length v1 /\
  exists c0 c1, t0' = t0 ++ c0 /\ t1' = t1 ++ c1 /\ length c0 = length c1 /\
    (same n0 n1 -> c0 = c1 -> same n0' n1' /\ map es_proof sts0 = map es_proof sts1) /\
    ((forall path, In path paths -> agree (between [] path)) -> map es_proof sts0 = map es_proof sts1 -> c0 = c1)).
Proof.
  induction paths as [|path paths IH]; intros n0 n1 t0 t1 n0' v0 t0' n1' v1 t1' Hw0 Hw1 Hs H0 H1; cbn [eval_paths] in H0, H1.
  - injection H0 as <- <- <-. injection H1 as <- <- <-.
    repeat (split; [solve [assumption|auto]|]). split; [intros ? []|].
    exists [], []. repeat (split; [solve [constructor|reflexivity]|]).
    exists [], []. rewrite !app_nil_r. repeat split; auto.
  - bret H0 as _u Ha. bret H1 as _u1 _. apply assert_ret in Ha. clear _u _u1.
    bret H0 as [[r0 m0] s0] Ht0. bret H1 as [[r1 m1] s1] Ht1.
    destruct (traverse_pair _ _ _ _ _ _ _ _ _ _ _ _ Hw0 Hw1 Hs Ht0 Ht1) as
      (Hr0 & Hr1 & Hrs & Hm0 & Hm1 & _ & _ & Hop & c0 & c1 & Hc0 & Hc1 & Hcl & Hcsame & Hcag).
    bret H0 as x0 Hx0. bret H1 as x1 Hx1.
    bret H0 as [[q0 vs0] u0] He0. bret H1 as [[q1 vs1] u1] He1.
    injection H0 as <- <- <-. injection H1 as <- <- <-.
    destruct (IH _ _ _ _ _ _ _ _ _ _ Hr0 Hr1 Hrs He0 He1) as
      (Hq0 & Hq1 & Hqs & Hqo & Hqall & sts0 & sts1 & Hf0 & Hf1 & Hl0 & Hl1 & d0 & d1 & Hd0 & Hd1 & Hdl & Hdsame & Hdag).
    apply negb_true_iff, Nat.eqb_neq in Ha.
    pose proof (nwf_node_at _ _ _ _ _ _ _ Hr0 Hm0) as Hmw0. pose proof (nwf_node_at _ _ _ _ _ _ _ Hr1 Hm1) as Hmw1.
    cbn [app] in Hmw0, Hmw1. apply nwf_evals in Hmw0, Hmw1.
    destruct (n_word m0) as [y0|] eqn:Hy0; [|discriminate]. injection Hx0 as <-.
    destruct (n_word m1) as [y1|] eqn:Hy1; [|discriminate]. injection Hx1 as <-.
    pose proof (proj2 (proj1 (evals_typed E Hok k0 len Hty0 _ _ _ Hmw0))) as Hpl0.
    pose proof (proj2 (proj1 (evals_typed E Hok k1 len Hty1 _ _ _ Hmw1))) as Hpl1.
    split; [exact Hq0|]. split; [exact Hq1|]. split; [exact Hqs|]. split; [auto|].
    split.
    { intros pa [<-|Hin]; [|apply Hqall; exact Hin]. split.
      - apply Hqo. unfold opened. rewrite Hm0. discriminate.
      - intros ->. apply Ha. reflexivity. }
    exists (n_state m0 :: sts0), (n_state m1 :: sts1). cbn [combine].
    split; [constructor; assumption|]. split; [constructor; assumption|]. split; [cbn; lia|]. split; [cbn; lia|].
    exists (c0 ++ es_proof (n_state m0) ++ d0), (c1 ++ es_proof (n_state m1) ++ d1).
    rewrite Hd0, Hd1, Hc0, Hc1, !app_assoc. split; [reflexivity|]. split; [reflexivity|].
    split; [rewrite !app_length; lia|]. rewrite <- !app_assoc. split.
    + intros Hsm Heq. apply app_inj_len in Heq; [|exact Hcl]. destruct Heq as [Heq1 Heq].
      apply app_inj_len in Heq; [|congruence]. destruct Heq as [Heq2 Heq3].
      destruct (Hdsame (Hcsame Hsm Heq1) Heq3) as [Hsm' Hpr]. split; [exact Hsm'|]. cbn [map]. congruence.
    + intros Hag Hpr. cbn [map] in Hpr. injection Hpr as Hpr1 Hpr2.
      rewrite Hcag; [|apply Hag; left; reflexivity]. rewrite Hpr1, Hdag; auto. intros pa Hpa. apply Hag. right. exact Hpa.
Qed.
End Pair.
