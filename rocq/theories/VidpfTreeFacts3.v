(** eval_tree: totality on evaluable keys, honest correctness (C04) and soundness (C05). *)
From Verif Require Import Base BaseFacts Field Util UtilFacts Env Prg PrgFacts PrgSpecFacts PrgSpecFacts2 Vidpf SpecPrg SpecVidpf SpecTree
  VidpfFacts VidpfEvalFacts VidpfTreeFacts VidpfTreeFacts2.

Lemma eval_loop_app E k len p : forall st bs q,
  eval_loop E k st bs (p ++ q) len =
  (let! '(st1, bs1, o1) := eval_loop E k st bs p len in
   let! '(st2, bs2, o2) := eval_loop E k st1 bs1 q len in Ret (st2, bs2, o1 ++ o2)).
Proof.
  induction p as [|d p IH]; intros st bs q; cbn [app eval_loop bind].
  - destruct (eval_loop E k st bs q len) as [[[? ?] ?]|]; reflexivity.
  - destruct (eval_bit E k st d (bs ++ [bit_char d]) len) as [[st1 w1]|]; cbn [bind]; [|reflexivity].
    rewrite IH. destruct (eval_loop E k st1 (bs ++ [bit_char d]) p len) as [[[st2 bs2] o2]|]; cbn [bind]; [|reflexivity].
    destruct (eval_loop E k st2 bs2 q len) as [[[st3 bs3] o3]|]; reflexivity.
Qed.
Lemma evals_eval_loop E k len p st w : evals E k len p st w ->
  exists out, eval_loop E k (eval_init k) [] p len = Ret (st, bits_to_bitstring p, out).
Proof.
  induction 1 as [|p st w d st' w' He IH Hb]; [exists []; reflexivity|].
  destruct IH as [out IH]. rewrite eval_loop_app, IH. cbn [bind eval_loop]. rewrite <- bits_snoc, Hb. cbn [bind]. eauto.
Qed.
Lemma last_nth_error {A} (l : list A) : l <> [] -> Some (nth_error l (length l - 1)) = Some (last (map Some l) None).
Proof.
  destruct (snoc_cases l) as [->|(p & d & ->)]; [contradiction|]. intros _.
  rewrite nth_snoc, map_app. cbn [map]. rewrite last_last. reflexivity.
Qed.
Lemma evals_share_at E k len p st w : evals E k len p st (Some w) -> share_at E k len p = Ret (w, es_proof st).
Proof.
  intros H. destruct (evals_eval_loop _ _ _ _ _ _ H) as [out Ho]. unfold share_at. rewrite Ho. cbn [bind].
  destruct (eval_loop_evals_init _ _ _ _ _ _ _ Ho) as [He Hl].
  destruct (evals_fun _ _ _ _ _ _ _ _ H He) as [_ Hlast].
  assert (Hne : out <> []).
  { intros ->. discriminate. }
  pose proof (last_nth_error out Hne) as HL. injection HL as HL. rewrite <- Hlast, Hl in HL. rewrite HL. reflexivity.
Qed.
Lemma share_at_evals E k len p w pf : p <> [] -> share_at E k len p = Ret (w, pf) ->
  exists st, evals E k len p st (Some w) /\ es_proof st = pf.
Proof.
  intros Hp H. unfold share_at in H. bret H as [[st bs] out] Ho. bret H as w' Hw. injection H as <- <-.
  destruct (eval_loop_evals_init _ _ _ _ _ _ _ Ho) as [He Hl]. exists st. split; [|reflexivity].
  assert (Hne : out <> []) by (intros ->; destruct p; [contradiction|discriminate]).
  pose proof (last_nth_error out Hne) as HL. injection HL as HL. rewrite Hl in HL.
  destruct (nth_error out (length p - 1)); [|discriminate]. injection Hw as ->. rewrite HL. exact He.
Qed.

Section One.
Variable E : env.
Hypothesis Hok : env_ok E.
Variable k : vidpf_key.
Hypothesis Hty : key_typed k.
Variable len : nat.

Definition evaluable (D : nat) : Prop := forall q, length q <= D -> exists st w, evals E k len q st w.

Lemma node_next_total D p bs st w b : evaluable D -> length p < D -> bs = bits_to_bitstring p -> evals E k len p st w ->
  exists c, node_next E k bs st b len = Ret c.
Proof.
  intros HD Hp -> He. destruct (HD (p ++ [b])) as (st' & w' & He'); [rewrite app_length; cbn; lia|].
  apply evals_inv in He'. destruct He' as [(Hc & _)|(p1 & d1 & s1 & w1 & v1 & Hc & He1 & Hb & _)]; [destruct p; discriminate|].
  apply app_inj_tail in Hc. destruct Hc as [<- <-]. destruct (evals_fun _ _ _ _ _ _ _ _ He He1) as [<- <-].
  unfold node_next. rewrite <- bits_snoc, Hb. cbn [bind]. eauto.
Qed.

Lemma traverse_total D path : forall p n tr, evaluable D -> nwf E k len p n -> length p + length path <= D ->
  exists res, traverse E k len path n tr = Ret res.
Proof.
  induction path as [|b path IH]; intros p n tr HD Hn Hl; cbn [traverse]; [eauto|].
  destruct n as [bs w pc st l r]. cbn [length] in Hl. pose proof Hn as Hn'. cbn [nwf] in Hn'. destruct Hn' as (Hbs & He & Hc).
  assert (Hch : forall (lr : option enode) d (p1 : option (list fld)),
    match lr with Some c => nwf E k len (p ++ [d]) c | None => True end ->
    exists c p2, (match lr with None => let! c := node_next E k bs st d len in Ret (c, sub_child p1 c) | Some c => Ret (c, p1) end) = Ret (c, p2)
      /\ nwf E k len (p ++ [d]) c).
  { intros [c|] d p1 Hx; [eauto|].
    destruct (node_next_total D p bs st w d HD ltac:(lia) Hbs He) as [c Hc']. rewrite Hc'. cbn [bind].
    do 2 eexists. split; [reflexivity|]. apply (node_next_wf _ _ _ _ _ _ _ _ _ Hbs He Hc'). }
  destruct (Hch l false match w, pc with Some x, None => Some x | _, _ => None end) as (ln & p2 & Hln & Hlw).
  { destruct l, r; try contradiction; tauto. }
  rewrite Hln. cbn [bind].
  destruct (Hch r true p2) as (rn & p3 & Hrn & Hrw).
  { destruct l, r; try contradiction; tauto. }
  rewrite Hrn. cbn [bind].
  destruct (match p3 with Some x => _ | None => _ end) as [pc' tr'].
  destruct b; cbn [negb].
  - destruct (IH (p ++ [true]) rn tr' HD Hrw) as [[[? ?] ?] ->]; [rewrite app_length; cbn; lia|]. cbn [bind]. eauto.
  - destruct (IH (p ++ [false]) ln tr' HD Hlw) as [[[? ?] ?] ->]; [rewrite app_length; cbn; lia|]. cbn [bind]. eauto.
Qed.

Lemma shp_refl : forall n p, nwf E k len p n -> shp n n.
Proof.
  fix IH 1. intros [bs w pc st l r] p. cbn [nwf shp]. intros (_ & _ & Hc).
  destruct l as [ln|], r as [rn|]; try contradiction; [|exact I].
  destruct Hc as (Hl & Hr & _). split; [apply (IH ln _ Hl)|apply (IH rn _ Hr)].
Qed.
Lemma traverse_nwf path p n tr n' m tr' : nwf E k len p n -> traverse E k len path n tr = Ret (n', m, tr') ->
  nwf E k len p n' /\ node_at n' path = Some m.
Proof.
  intros Hn Ht. destruct (traverse_pair E Hok k k len Hty Hty _ _ _ _ _ _ _ _ _ _ _ _ Hn Hn (shp_refl _ _ Hn) Ht Ht) as (H & _ & _ & Hm & _).
  auto.
Qed.

Lemma eval_paths_total D paths : forall n tr, evaluable D -> nwf E k len [] n ->
  (forall path, In path paths -> 1 <= length path <= D) ->
  exists n' v tr', eval_paths E k len paths n tr = Ret (n', v, tr') /\ nwf E k len [] n'.
Proof.
  induction paths as [|path paths IH]; intros n tr HD Hn Hp; cbn [eval_paths]; [eauto|].
  pose proof (Hp path (or_introl eq_refl)) as Hl.
  rewrite (proj2 (assert_true (negb (length path =? 0)))) by (apply negb_true_iff, Nat.eqb_neq; lia). cbn [bind].
  destruct (traverse_total D path [] n tr HD Hn) as [[[n1 m] tr1] Ht]; [cbn; lia|].
  rewrite Ht. cbn [bind]. destruct (traverse_nwf _ _ _ _ _ _ _ Hn Ht) as [Hn1 Hm].
  pose proof (nwf_evals _ _ _ _ _ (nwf_node_at _ _ _ _ _ _ _ Hn1 Hm)) as He. cbn [app] in He.
  destruct (n_word m) as [w|] eqn:Hw.
  2:{ apply (evals_none E len k) in He. destruct He as [He _]. rewrite (He eq_refl) in Hl. cbn in Hl. lia. }
  cbn [unwrap bind].
  destruct (IH n1 (tr1 ++ es_proof (n_state m)) HD Hn1) as (n2 & v & tr2 & -> & Hn2).
  { intros q Hq. apply Hp. right. exact Hq. }
  cbn [bind]. eauto.
Qed.
End One.

Lemma check_sum x0 l0 r0 x1 l1 r1 n :
  length x0 = n -> length l0 = n -> length r0 = n -> length x1 = n -> length l1 = n -> length r1 = n ->
  (vec_sub (vec_sub x0 l0) r0 = vec_neg (vec_sub (vec_sub x1 l1) r1) <->
   vec_add x0 x1 = vec_add (vec_add l0 l1) (vec_add r0 r1)).
Proof.
  revert x0 l0 r0 x1 l1 r1. induction n as [|n IH]; intros [|a x0] [|b l0] [|c r0] [|a1 x1] [|b1 l1] [|c1 r1]; cbn [length]; intros; try discriminate.
  - split; reflexivity.
  - unfold vec_neg in *. cbn [vec_sub vec_add map]. specialize (IH x0 l0 r0 x1 l1 r1).
    destruct IH as [IH1 IH2]; [lia ..|].
    assert (Hcons : forall (u v : fld) y z, u :: y = v :: z -> u = v /\ y = z) by (intros; split; congruence).
    split; intros H'; apply Hcons in H'; destruct H' as [Ha Hb]; f_equal; try (apply IH1; exact Hb); try (apply IH2; exact Hb).
    + transitivity (fadd (fadd (fsub (fsub a b) c) (fadd b c)) a1); [ring|]. rewrite Ha. ring.
    + transitivity (fsub (fsub (fsub (fadd a a1) a1) b) c); [ring|]. rewrite Ha. ring.
Qed.

(** the pair at the level of eval_tree *)
Section Pair.
Variable E : env.
Hypothesis Hok : env_ok E.
Variables k0 k1 : vidpf_key.
Variable len : nat.
Hypothesis Hty0 : key_typed k0.
Hypothesis Hty1 : key_typed k1.
Hypothesis Hi0 : key_idx k0 = false.
Hypothesis Hi1 : key_idx k1 = true.

Lemma agree_1 d : agree E k0 k1 len (between [] [d]).
Proof.
  intros q s0 x0 sl0 l0 sr0 r0 s1 x1 sl1 l1 sr1 r1 (u & s & Hs & Hu & Hq) H.
  destruct u as [|x u]; [|destruct u; destruct s; try discriminate; contradiction]. cbn [app] in Hq. subst q.
  apply (evals_none E len k0) in H. destruct H as [_ H]. discriminate (H eq_refl).
Qed.

Lemma eval_tree_pair paths tr v0 b0 t0 v1 b1 t1 :
  eval_tree E k0 paths len tr = Ret (v0, b0, t0) -> eval_tree E k1 paths len tr = Ret (v1, b1, t1) ->
  exists n0 n1 sts0 sts1 L0 l0 R0 r0 L1 l1 R1 r1 c0 c1 z0 z1,
    nwf E k0 len [] n0 /\ nwf E k1 len [] n1 /\ shp n0 n1 /\
    (forall path, In path paths -> opened n0 path /\ path <> []) /\
    Forall2 (fun path sv => evals E k0 len path (fst sv) (Some (snd sv))) paths (combine sts0 v0) /\
    Forall2 (fun path sv => evals E k1 len path (fst sv) (Some (snd sv))) paths (combine sts1 v1) /\
    length sts0 = length v0 /\ length sts1 = length v1 /\
    evals E k0 len [false] L0 (Some l0) /\ evals E k0 len [true] R0 (Some r0) /\
    evals E k1 len [false] L1 (Some l1) /\ evals E k1 len [true] R1 (Some r1) /\
    b0 = firstn len (vec_add l0 r0) /\ b1 = firstn len (vec_add l1 r1) /\
    nth_error (vec_add l0 r0) len = Some z0 /\ nth_error (vec_add l1 r1) len = Some z1 /\
    t0 = tr ++ c0 ++ get_encoded (fadd z0 (of_N 0)) /\ t1 = tr ++ c1 ++ get_encoded (fadd (fneg z1) (of_N 1)) /\ length c0 = length c1 /\
    (c0 = c1 -> same n0 n1 /\ map es_proof sts0 = map es_proof sts1) /\
    ((forall path, In path paths -> agree E k0 k1 len (between [] path)) -> map es_proof sts0 = map es_proof sts1 -> c0 = c1).
Proof.
  intros H0 H1. unfold eval_tree in H0, H1. rewrite Hi0 in H0. rewrite Hi1 in H1.
  bret H0 as [[n0 vs0] u0] Hp0. bret H1 as [[n1 vs1] u1] Hp1.
  destruct (eval_paths_pair E Hok k0 k1 len Hty0 Hty1 _ _ _ _ _ _ _ _ _ _ _ (nwf_root E k0 len) (nwf_root E k1 len) I Hp0 Hp1) as
    (Hn0 & Hn1 & Hs & _ & Hop & sts0 & sts1 & Hf0 & Hf1 & Hl0 & Hl1 & c0 & c1 & Hc0 & Hc1 & Hcl & Hsame & Hag).
  bret H0 as [[n0a ml0] u0a] HL0. bret H1 as [[n1a ml1] u1a] HL1.
  destruct (traverse_pair E Hok k0 k1 len Hty0 Hty1 _ _ _ _ _ _ _ _ _ _ _ _ Hn0 Hn1 Hs HL0 HL1) as
    (Hna0 & Hna1 & Hsa & Hma0 & Hma1 & _ & _ & Hopa & ca0 & ca1 & Hca0 & Hca1 & Hcal & Hsamea & Haga).
  bret H0 as yl0 Hy0. bret H1 as yl1 Hy1.
  bret H0 as [[n0b mr0] u0b] HR0. bret H1 as [[n1b mr1] u1b] HR1.
  destruct (traverse_pair E Hok k0 k1 len Hty0 Hty1 _ _ _ _ _ _ _ _ _ _ _ _ Hna0 Hna1 Hsa HR0 HR1) as
    (Hnb0 & Hnb1 & Hsb & Hmb0 & Hmb1 & _ & _ & Hopb & cb0 & cb1 & Hcb0 & Hcb1 & Hcbl & Hsameb & Hagb).
  bret H0 as yr0 Hr0. bret H1 as yr1 Hr1. bret H0 as z0 Hz0. bret H1 as z1 Hz1.
  injection H0 as <- <- <-. injection H1 as <- <- <-.
  pose proof (nwf_evals _ _ _ _ _ (nwf_node_at _ _ _ _ _ _ _ Hna0 Hma0)) as Hel0. cbn [app] in Hel0.
  pose proof (nwf_evals _ _ _ _ _ (nwf_node_at _ _ _ _ _ _ _ Hna1 Hma1)) as Hel1. cbn [app] in Hel1.
  pose proof (nwf_evals _ _ _ _ _ (nwf_node_at _ _ _ _ _ _ _ Hnb0 Hmb0)) as Her0. cbn [app] in Her0.
  pose proof (nwf_evals _ _ _ _ _ (nwf_node_at _ _ _ _ _ _ _ Hnb1 Hmb1)) as Her1. cbn [app] in Her1.
  destruct (n_word ml0) as [x|]; [|discriminate]; injection Hy0 as ->.
  destruct (n_word ml1) as [x|]; [|discriminate]; injection Hy1 as ->.
  destruct (n_word mr0) as [x|]; [|discriminate]; injection Hr0 as ->.
  destruct (n_word mr1) as [x|]; [|discriminate]; injection Hr1 as ->.
  apply index_ret in Hz0, Hz1.
  exists n0b, n1b, sts0, sts1, (n_state ml0), yl0, (n_state mr0), yr0, (n_state ml1), yl1, (n_state mr1), yr1,
    (c0 ++ ca0 ++ cb0), (c1 ++ ca1 ++ cb1), z0, z1.
  assert (Eca : ca0 = ca1) by (apply Haga; apply agree_1).
  assert (Ecb : cb0 = cb1) by (apply Hagb; apply agree_1).
  do 3 (split; [assumption|]).
  split; [intros path Hin; split; [apply Hopb, Hopa|]; apply Hop; exact Hin|].
  do 8 (split; [assumption|]). split; [reflexivity|]. split; [reflexivity|]. split; [assumption|]. split; [assumption|].
  rewrite Hcb0, Hcb1, Hca0, Hca1, Hc0, Hc1, <- !app_assoc. split; [reflexivity|]. split; [reflexivity|].
  split; [rewrite !app_length; lia|]. split.
  - intros Heq. apply app_inj_len in Heq; [|exact Hcl]. destruct Heq as [Heq _].
    destruct (Hsame (conj eq_refl I) Heq) as [Hsm Hpr]. auto.
  - intros Hagr Hpr. rewrite Eca, Ecb, Hag; auto.
Qed.

(** soundness at one interior node *)
Lemma same_node_at q : forall n0 n1 m0, same n0 n1 -> node_at n0 q = Some m0 -> exists m1, node_at n1 q = Some m1 /\ same m0 m1.
Proof.
  induction q as [|b q IH]; intros n0 n1 m0 Hs Hm; cbn [node_at] in Hm |- *.
  - injection Hm as <-. eauto.
  - destruct n0 as [? ? ? ? l0 r0], n1 as [? ? ? ? l1 r1]. cbn [same] in Hs. destruct Hs as [_ Hs].
    destruct l0, r0, l1, r1; try contradiction; [|destruct b; discriminate].
    destruct Hs. destruct b; eapply IH; eassumption.
Qed.
Lemma node_at_app n q s m : node_at n (q ++ s) = Some m -> exists m', node_at n q = Some m' /\ node_at m' s = Some m.
Proof.
  revert n. induction q as [|b q IH]; intros n H; cbn [app node_at] in *; [eauto|].
  destruct n as [? ? ? ? l r]. destruct (if b then r else l); [|discriminate]. apply IH. exact H.
Qed.

Lemma eval_tree_sound paths tr v0 b0 t v1 b1 :
  eval_tree E k0 paths len tr = Ret (v0, b0, t) -> eval_tree E k1 paths len tr = Ret (v1, b1, t) ->
  (forall path q, In path paths -> q <> [] -> proper_prefix q path ->
     exists w0 l0 r0 w1 l1 r1 a b c a' b' c',
       share_at E k0 len q = Ret (w0, a) /\ share_at E k0 len (q ++ [false]) = Ret (l0, b) /\ share_at E k0 len (q ++ [true]) = Ret (r0, c) /\
       share_at E k1 len q = Ret (w1, a') /\ share_at E k1 len (q ++ [false]) = Ret (l1, b') /\ share_at E k1 len (q ++ [true]) = Ret (r1, c') /\
       length w0 = len + 1 /\ length w1 = len + 1 /\
       vec_add w0 w1 = vec_add (vec_add l0 l1) (vec_add r0 r1)) /\
  (exists l0 r0 l1 r1 a b a' b',
       share_at E k0 len [false] = Ret (l0, a) /\ share_at E k0 len [true] = Ret (r0, b) /\
       share_at E k1 len [false] = Ret (l1, a') /\ share_at E k1 len [true] = Ret (r1, b') /\
       nth_error (vec_add (vec_add l0 r0) (vec_add l1 r1)) len = Some (of_Z 1) /\
       b0 = firstn len (vec_add l0 r0) /\ b1 = firstn len (vec_add l1 r1)) /\
  (length v0 = length paths /\ length v1 = length paths /\
   forall i path w0 w1, nth_error paths i = Some path -> nth_error v0 i = Some w0 -> nth_error v1 i = Some w1 ->
     exists pf, share_at E k0 len path = Ret (w0, pf) /\ share_at E k1 len path = Ret (w1, pf)).
Proof.
  intros H0 H1. destruct (eval_tree_pair _ _ _ _ _ _ _ _ H0 H1) as
    (n0 & n1 & sts0 & sts1 & L0 & l0 & R0 & r0 & L1 & l1 & R1 & r1 & c0 & c1 & z0 & z1 &
     Hn0 & Hn1 & Hs & Hop & Hf0 & Hf1 & Hls0 & Hls1 & HL0 & HR0 & HL1 & HR1 & Hb0 & Hb1 & Hz0 & Hz1 & Ht0 & Ht1 & Hcl & Hsame & _).
  rewrite Ht0 in Ht1. apply app_inv_head in Ht1. apply app_inj_len in Ht1; [|exact Hcl]. destruct Ht1 as [Hc Hz].
  apply get_encoded_inj in Hz. destruct (Hsame Hc) as [Hsm Hpr].
  pose proof (fun p st w => evals_typed E Hok k0 len Hty0 p st (Some w)) as T0.
  pose proof (fun p st w => evals_typed E Hok k1 len Hty1 p st (Some w)) as T1.
  assert (T0' : forall p st w, evals E k0 len p st (Some w) -> length w = len + 1) by (intros p st w He; apply (T0 p st w He); reflexivity).
  assert (T1' : forall p st w, evals E k1 len p st (Some w) -> length w = len + 1) by (intros p st w He; apply (T1 p st w He); reflexivity).
  split; [|split].
  - intros path q Hin Hq (s & Hsn & ->). destruct (Hop _ Hin) as [Hopen _]. unfold opened in Hopen.
    destruct (node_at n0 (q ++ s)) as [m|] eqn:Hm; [|contradiction].
    destruct (node_at_app _ _ _ _ Hm) as (m0 & Hm0 & Hms).
    destruct (same_node_at _ _ _ _ Hsm Hm0) as (m1 & Hm1 & Hsmm).
    pose proof (nwf_node_at _ _ _ _ _ _ _ Hn0 Hm0) as Hw0. pose proof (nwf_node_at _ _ _ _ _ _ _ Hn1 Hm1) as Hw1.
    cbn [app] in Hw0, Hw1. destruct m0 as [bs0 w0 pc0 st0 lc0 rc0], m1 as [bs1 w1 pc1 st1 lc1 rc1].
    cbn [same] in Hsmm. destruct Hsmm as [Hpc Hch].
    destruct lc0 as [lc0|], rc0 as [rc0|], lc1 as [lc1|], rc1 as [rc1|]; try contradiction.
    2:{ destruct s as [|d s]; [contradiction|]. cbn [node_at] in Hms. destruct d; discriminate. }
    destruct (nwf_pc E Hok len k0 _ _ _ _ _ _ _ Hty0 Hw0) as [(Hp & _)|(x0 & xl0 & xr0 & _ & _ & Hx0 & Hxl0 & Hxr0 & _ & _ & Hc0 & _)]; [contradiction|].
    destruct (nwf_pc E Hok len k1 _ _ _ _ _ _ _ Hty1 Hw1) as [(Hp & _)|(x1 & xl1 & xr1 & _ & _ & Hx1 & Hxl1 & Hxr1 & _ & _ & Hc1 & _)]; [contradiction|].
    do 12 eexists. repeat (split; [solve [eapply evals_share_at; eassumption|eapply T0'; eassumption|eapply T1'; eassumption]|]).
    rewrite Hc0, Hc1 in Hpc. injection Hpc as Hpc. unfold check, sgn in Hpc. rewrite Hi0, Hi1 in Hpc.
    apply (check_sum _ _ _ _ _ _ (len + 1)) in Hpc; [exact Hpc|eapply T0'; eassumption ..|eapply T1'; eassumption|eapply T1'; eassumption|eapply T1'; eassumption].
  - do 8 eexists. repeat (split; [solve [eapply evals_share_at; eassumption]|]). split; [|split; assumption].
    rewrite vec_add_nth, Hz0, Hz1. f_equal.
    change (of_N 0) with fzero in Hz. change (of_N 1) with fone in Hz. change (of_Z 1) with fone.
    transitivity (fadd (fadd z0 fzero) z1); [ring|]. rewrite Hz. ring.
  - pose proof (Forall2_len _ _ _ Hf0) as Hlen0. pose proof (Forall2_len _ _ _ Hf1) as Hlen1.
    rewrite combine_length in Hlen0, Hlen1.
    split; [lia|]. split; [lia|]. intros i path w0 w1 Hp Hv0 Hv1.
    destruct (nth_error sts0 i) as [s0|] eqn:Hs0.
    2:{ apply nth_error_None in Hs0. assert (i < length v0) by (apply nth_error_Some; congruence). lia. }
    destruct (nth_error sts1 i) as [s1|] eqn:Hs1.
    2:{ apply nth_error_None in Hs1. assert (i < length v1) by (apply nth_error_Some; congruence). lia. }
    exists (es_proof s0). split.
    + apply Forall2_nth in Hf0. destruct Hf0 as [_ Hf0].
      apply evals_share_at. apply (Hf0 i path (s0, w0) Hp). rewrite nth_error_combine, Hs0, Hv0. reflexivity.
    + apply Forall2_nth in Hf1. destruct Hf1 as [_ Hf1].
      apply (f_equal (fun l => nth_error l i)) in Hpr. rewrite !nth_error_map', Hs0, Hs1 in Hpr. cbn [option_map] in Hpr.
      injection Hpr as ->. apply evals_share_at. apply (Hf1 i path (s1, w1) Hp). rewrite nth_error_combine, Hs1, Hv1. reflexivity.
Qed.
End Pair.
