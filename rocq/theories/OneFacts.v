(** Proofs of C61 (soundness): keys that pass every check behave like honest ones. *)
From Verif Require Import Base BaseFacts Field Util UtilFacts Env Prg PrgFacts PrgSpecFacts PrgSpecFacts2 Vidpf SpecPrg SpecVidpf SpecTree SpecHash SpecOne
  VidpfFacts VidpfEvalFacts VidpfTreeFacts VidpfTreeFacts2 VidpfTreeFacts3 VidpfTreeFacts4 VidpfPropFacts2 HashFacts LevelFacts.

Definition no_cw : cor_word := {| cw_seed := []; cw_bits := (false, false); cw_word := [] |}.

Lemma step_facts E k st d bs len st' w : env_ok E -> key_typed k -> st_typed st -> eval_bit E k st d bs len = Ret (st', w) ->
  exists W, convert E (pre_seed E k st d) len = Ret (es_seed st', W) /\
    w = sgn k (if es_bit st' then vec_add W (cw_word (nth (es_level st) (cor_words k) no_cw)) else W).
Proof.
  intros Hok Hty [Hs Hp] H. unfold eval_bit in H. rewrite (expand_dir_spec E Hok) in H by exact Hs. cbn [bind po_seeds po_bits] in H.
  bret H as [sd nb] Hsd. bret H as [ns wd] Hcv. bret H as w2 Hw2. bret H as h Hh. injection H as <- <-. cbn [es_seed es_bit].
  exists wd. split.
  - unfold pre_seed, expand. rewrite (expand_dir_spec E Hok) by exact Hs. cbn [po_seeds fst snd].
    destruct (es_bit st).
    + bret Hsd as cw Hcw. unfold index in Hcw. destruct (nth_error (cor_words k) (es_level st)) as [c|]; [|discriminate]. injection Hcw as ->.
      injection Hsd as <- <-. unfold seed_xor in Hcv. destruct d; cbn [tget fst snd negb] in Hcv; exact Hcv.
    + injection Hsd as <- <-. destruct d; cbn [tget fst snd negb] in Hcv; exact Hcv.
  - unfold sgn. destruct nb.
    + bret Hw2 as cw Hcw. unfold index in Hcw. destruct (nth_error (cor_words k) (es_level st)) as [c|] eqn:Hn; [|discriminate]. injection Hcw as ->.
      injection Hw2 as <-. rewrite (nth_error_nth _ _ _ Hn). reflexivity.
    + injection Hw2 as <-. reflexivity.
Qed.

(** the same state with the same public part gives the same next state *)
Lemma step_same E k0 k1 st d bs len u0 u1 w0 w1 : same_public k0 k1 ->
  eval_bit E k0 st d bs len = Ret (u0, w0) -> eval_bit E k1 st d bs len = Ret (u1, w1) -> u0 = u1.
Proof.
  intros [Hw Hc] H0 H1. unfold eval_bit in *. rewrite Hw, Hc in H0.
  bret H0 as t Ht. rewrite Ht in H1. cbn [bind] in H1. bret H0 as [sd nb] Hsd. rewrite Hsd in H1. cbn [bind] in H1.
  bret H0 as [ns wd] Hcv. rewrite Hcv in H1. cbn [bind] in H1. bret H0 as w2 Hw2. rewrite Hw2 in H1. cbn [bind] in H1.
  bret H0 as h Hh. rewrite Hh in H1. cbn [bind] in H1. congruence.
Qed.

Lemma xor_vec_inj_l (a : bytes) : forall b c, length b = length a -> length c = length a -> xor_vec a b = xor_vec a c -> b = c.
Proof.
  intros b c Hb Hc H. assert (E0 := xor_vec_cancel_l a b ltac:(lia)). assert (E1 := xor_vec_cancel_l a c ltac:(lia)).
  rewrite H, E1 in E0. rewrite !firstn_all2 in E0 by lia. congruence.
Qed.

Lemma longest {A} (l : list (list A)) : l = [] \/ exists a, In a l /\ forall b, In b l -> length b <= length a.
Proof.
  induction l as [|x l IH]; [auto|]. right. destruct IH as [->|(a & Ha & Hm)].
  - exists x. split; [left; reflexivity|]. intros b [<-|[]]. lia.
  - destruct (Nat.le_gt_cases (length x) (length a)) as [L|L].
    + exists a. split; [right; exact Ha|]. intros b [<-|Hb]; auto.
    + exists x. split; [left; reflexivity|]. intros b [<-|Hb]; [lia|]. specialize (Hm _ Hb). lia.
Qed.

Lemma firstn_nth {A} (l : list A) : forall n i d, i < n -> nth i (firstn n l) d = nth i l d.
Proof. induction l as [|x l IH]; intros [|n] [|i] d Hi; try lia; try reflexivity. apply IH. lia. Qed.

Section Sound.
Variable E : env.
Hypothesis Hok : env_ok E.
Variables k0 k1 : vidpf_key.
Variable len : nat.
Hypothesis Hty0 : key_typed k0.
Hypothesis Hty1 : key_typed k1.
Hypothesis Hi0 : key_idx k0 = false.
Hypothesis Hi1 : key_idx k1 = true.
Hypothesis Hpub : same_public k0 k1.
Variable paths : list (list bool).
Hypothesis Hnz : forall path i, In path paths -> i < length path -> nth i (cs k0) [] <> repeat 0%N 16.
Hypothesis Hco : no_coincidence E k0 k1 len (under paths).
(** what C05 says about the keys *)
Hypothesis Hleaf : forall path, In path paths -> path <> [] /\ exists s0 s1 w0 w1, evals E k0 len path s0 (Some w0) /\ evals E k1 len path s1 (Some w1) /\ es_proof s0 = es_proof s1.

Notation ev0 := (evals E k0 len).
Notation ev1 := (evals E k1 len).

Lemma reach_evals k q st w : evals E k len q st w -> node_state E k len q st.
Proof. intros H. destruct (evals_eval_loop _ _ _ _ _ _ H) as [out Ho]. do 2 eexists. exact Ho. Qed.

(** every node looked at is evaluated by both *)
Lemma node_evals q : under paths q -> exists s0 s1 w0 w1, ev0 q s0 (Some w0) /\ ev1 q s1 (Some w1).
Proof.
  intros (Hne & path & Hin & Hp). apply is_prefix_exists in Hp. destruct Hp as [s ->].
  destruct (Hleaf _ Hin) as (_ & s0 & s1 & w0 & w1 & H0 & H1 & _).
  destruct (evals_prefix _ _ _ _ _ _ _ H0) as (u0 & x0 & A0 & B0). destruct (evals_prefix _ _ _ _ _ _ _ H1) as (u1 & x1 & A1 & B1).
  destruct x0 as [x0|]; [|destruct (B0 Hne eq_refl)]. destruct x1 as [x1|]; [|destruct (B1 Hne eq_refl)]. eauto 10.
Qed.
Lemma under_parent q d : q <> [] -> under paths (q ++ [d]) -> under paths q.
Proof.
  intros Hq (_ & path & Hin & Hp). split; [exact Hq|]. exists path. split; [exact Hin|]. apply is_prefix_exists in Hp. destruct Hp as [s ->].
  rewrite <- app_assoc. apply is_prefix_app.
Qed.

Lemma step_inv k q d st' w : evals E k len (q ++ [d]) st' w -> exists st w0 w1, evals E k len q st w0 /\ eval_bit E k st d (bits_to_bitstring (q ++ [d])) len = Ret (st', w1) /\ w = Some w1.
Proof.
  intros H. apply evals_inv in H. destruct H as [(Hc & _)|(p & d1 & s & w0 & w1 & Hc & He & Hb & ->)]; [destruct q; discriminate|].
  apply app_inj_tail in Hc. destruct Hc as [<- <-]. eauto 10.
Qed.
Lemma proof_of k q d st st' w w0 : key_typed k -> evals E k len q st w0 -> evals E k len (q ++ [d]) st' w ->
  es_proof st' = next_proof E (es_proof st) (contribution E k (q ++ [d]) st').
Proof.
  intros Hty H H'. destruct (step_inv _ _ _ _ _ H') as (s & x & y & Hs & Hb & _). destruct (evals_fun _ _ _ _ _ _ _ _ H Hs) as [<- _].
  destruct (evals_typed E Hok k len Hty _ _ _ H) as [Hst _].
  rewrite (eval_bit_proof E k st d _ len st' y Hok Hty Hst Hb). unfold contribution, hash16, mask. rewrite C54_bitstring_lemma.
  assert (Hl : es_level st = length (q ++ [d]) - 1).
  { clear -H. rewrite app_length. cbn [length]. rewrite Nat.add_sub. induction H as [|p s w e s' w' He IH Hb]; [reflexivity|].
    unfold eval_bit in Hb. bret Hb as tau Ht. bret Hb as [sd nb] Hsd. bret Hb as [ns wd] Hcv. bret Hb as w2 Hw2. bret Hb as h Hh.
    injection Hb as <- <-. cbn [es_level]. rewrite IH, app_length. reflexivity. }
  rewrite Hl. reflexivity.
Qed.
Lemma hash_len q s : length (hash16 E q s) = 16.
Proof. unfold hash16. rewrite firstn_length, (blake_len E Hok). reflexivity. Qed.
Lemma mask_len k q st w b : key_typed k -> evals E k len q st w -> q <> [] -> b = es_bit st -> length (mask k q b) = 16.
Proof.
  intros Hty H Hne ->. unfold mask. destruct (es_bit st) eqn:Hb; [|apply repeat_length].
  destruct (snoc_cases q) as [->|(p & d & ->)]; [contradiction|]. destruct (step_inv _ _ _ _ _ H) as (s & x & y & Hs & Hbit & _).
  assert (Hl : es_level s = length p).
  { clear -Hs. induction Hs as [|p s w e s' w' He IH Hb]; [reflexivity|].
    unfold eval_bit in Hb. bret Hb as tau Ht. bret Hb as [sd nb] Hsd. bret Hb as [ns wd] Hcv. bret Hb as w2 Hw2. bret Hb as h Hh.
    injection Hb as <- <-. cbn [es_level]. rewrite IH, app_length. reflexivity. }
  rewrite app_length. cbn [length]. rewrite Nat.add_sub, <- Hl.
  unfold eval_bit in Hbit. bret Hbit as tau Ht. bret Hbit as [sd nb] Hsd. bret Hbit as [ns wd] Hcv. bret Hbit as w2 Hw2. bret Hbit as h Hh. injection Hbit as <- <-. cbn [es_bit] in Hb. subst nb. cbn [negb] in Hh.
  bret Hh as c Hc. unfold index in Hc. destruct (nth_error (cs k) (es_level s)) as [c'|] eqn:Hn; [|discriminate].
  rewrite (nth_error_nth _ _ _ Hn). apply Hty. eapply nth_error_In. exact Hn.
Qed.

(** going up one step *)
Lemma agree_up q d s0 s1 u0 u1 w0 w1 x0 x1 : under paths (q ++ [d]) -> ev0 q s0 w0 -> ev1 q s1 w1 -> ev0 (q ++ [d]) u0 x0 -> ev1 (q ++ [d]) u1 x1 ->
  es_proof u0 = es_proof u1 -> es_proof s0 = es_proof s1 /\ contribution E k0 (q ++ [d]) u0 = contribution E k1 (q ++ [d]) u1.
Proof.
  intros Hu H0 H1 U0 U1 Hp. rewrite (proof_of k0 q d s0 u0 x0 w0 Hty0 H0 U0), (proof_of k1 q d s1 u1 x1 w1 Hty1 H1 U1) in Hp.
  destruct Hco as (_ & _ & Hc & _).
  assert (Hh := Hc q d s0 s1 u0 u1 Hu (reach_evals _ _ _ _ H0) (reach_evals _ _ _ _ H1) (reach_evals _ _ _ _ U0) (reach_evals _ _ _ _ U1) Hp).
  unfold next_proof in Hp. rewrite Hh in Hp.
  destruct (evals_typed E Hok k0 len Hty0 _ _ _ H0) as [[_ L0] _]. destruct (evals_typed E Hok k1 len Hty1 _ _ _ H1) as [[_ L1] _].
  assert (LB : forall b, length (firstn 16 (blake3 E b)) = 16) by (intros b; rewrite firstn_length, (blake_len E Hok); reflexivity).
  apply xor_vec_inj_l in Hp; [|rewrite LB; exact L0|rewrite LB; exact L1]. split; [exact Hp|].
  rewrite Hp in Hh. assert (Hne : q ++ [d] <> []) by (destruct q; discriminate).
  apply xor_vec_inj_l in Hh; [exact Hh| |]; unfold contribution; rewrite xor_vec_length, hash_len; [rewrite (mask_len k0 _ _ _ _ Hty0 U0 Hne eq_refl)|rewrite (mask_len k1 _ _ _ _ Hty1 U1 Hne eq_refl)]; rewrite L1; reflexivity.
Qed.

(** the proofs agree at every node looked at *)
Lemma agree_prefix s : forall q s0 s1 w0 w1 a0 a1 x0 x1, under paths (q ++ s) -> q <> [] -> ev0 q s0 w0 -> ev1 q s1 w1 -> ev0 (q ++ s) a0 x0 -> ev1 (q ++ s) a1 x1 ->
  es_proof a0 = es_proof a1 -> es_proof s0 = es_proof s1.
Proof.
  induction s as [|d s IH] using rev_ind; intros q s0 s1 w0 w1 a0 a1 x0 x1 Hu Hne H0 H1 A0 A1 Ha.
  - rewrite app_nil_r in A0, A1. destruct (evals_fun _ _ _ _ _ _ _ _ H0 A0) as [-> _]. destruct (evals_fun _ _ _ _ _ _ _ _ H1 A1) as [-> _]. exact Ha.
  - rewrite app_assoc in *. destruct (step_inv _ _ _ _ _ A0) as (b0 & y0 & z0 & B0 & _). destruct (step_inv _ _ _ _ _ A1) as (b1 & y1 & z1 & B1 & _).
    destruct (agree_up _ _ _ _ _ _ _ _ _ _ Hu B0 B1 A0 A1 Ha) as [Hb _].
    assert (Hq : q ++ s <> []) by (destruct q; [contradiction|discriminate]).
    exact (IH q s0 s1 w0 w1 b0 b1 y0 y1 (under_parent _ _ Hq Hu) Hne H0 H1 B0 B1 Hb).
Qed.
Lemma proofs_agree q s0 s1 w0 w1 : under paths q -> ev0 q s0 w0 -> ev1 q s1 w1 -> es_proof s0 = es_proof s1.
Proof.
  intros (Hne & path & Hin & Hp) H0 H1. apply is_prefix_exists in Hp. destruct Hp as [s ->].
  destruct (Hleaf _ Hin) as (Hpn & a0 & a1 & x0 & x1 & A0 & A1 & Ha).
  eapply agree_prefix; [|exact Hne|exact H0|exact H1|exact A0|exact A1|exact Ha].
  split; [exact Hpn|]. exists (q ++ s). split; [exact Hin|]. rewrite <- (app_nil_r (q ++ s)) at 2. apply is_prefix_app.
Qed.

(** a node where the two aggregators have different states *)
Definition split_at (q : list bool) : Prop :=
  exists s0 s1 w0 w1, ev0 q s0 w0 /\ ev1 q s1 w1 /\ (es_seed s0 <> es_seed s1 \/ es_bit s0 <> es_bit s1).

Lemma level_of k q st w : evals E k len q st w -> es_level st = length q.
Proof.
  intros H. induction H as [|p s w e s' w' He IH Hb]; [reflexivity|].
  unfold eval_bit in Hb. bret Hb as tau Ht. bret Hb as [sd nb] Hsd. bret Hb as [ns wd] Hcv. bret Hb as w2 Hw2. bret Hb as h Hh.
  injection Hb as <- <-. cbn [es_level]. rewrite IH, app_length. reflexivity.
Qed.
Lemma state_eq s0 s1 : es_level s0 = es_level s1 -> es_seed s0 = es_seed s1 -> es_bit s0 = es_bit s1 -> es_proof s0 = es_proof s1 -> s0 = s1.
Proof. destruct s0, s1; cbn. congruence. Qed.

Lemma split_dec q : under paths q -> split_at q \/ ~ split_at q.
Proof.
  intros Hu. destruct (node_evals q Hu) as (s0 & s1 & w0 & w1 & H0 & H1).
  destruct (list_eq_dec N.eq_dec (es_seed s0) (es_seed s1)) as [Hs|Hs]; [|left; do 4 eexists; eauto].
  destruct (bool_dec (es_bit s0) (es_bit s1)) as [Hb|Hb]; [|left; do 4 eexists; eauto].
  right. intros (t0 & t1 & x0 & x1 & T0 & T1 & Hc). destruct (evals_fun _ _ _ _ _ _ _ _ H0 T0) as [<- _]. destruct (evals_fun _ _ _ _ _ _ _ _ H1 T1) as [<- _]. tauto.
Qed.
Lemma not_split q s0 s1 w0 w1 : ~ split_at q -> ev0 q s0 w0 -> ev1 q s1 w1 -> es_seed s0 = es_seed s1 /\ es_bit s0 = es_bit s1.
Proof.
  intros Hn H0 H1. destruct (list_eq_dec N.eq_dec (es_seed s0) (es_seed s1)) as [Hs|Hs]; [|destruct Hn; do 4 eexists; eauto].
  destruct (bool_dec (es_bit s0) (es_bit s1)) as [Hb|Hb]; [auto|destruct Hn; do 4 eexists; eauto].
Qed.

(** below an equal state everything is equal *)
Lemma split_parent q d : q <> [] -> under paths (q ++ [d]) -> split_at (q ++ [d]) -> split_at q.
Proof.
  intros Hq Hu (u0 & u1 & x0 & x1 & U0 & U1 & Hd). pose proof (under_parent _ _ Hq Hu) as Hup.
  destruct (split_dec q Hup) as [|Hn]; [assumption|exfalso].
  destruct (step_inv _ _ _ _ _ U0) as (s0 & w0 & z0 & H0 & B0 & _). destruct (step_inv _ _ _ _ _ U1) as (s1 & w1 & z1 & H1 & B1 & _).
  destruct (not_split _ _ _ _ _ Hn H0 H1) as [Hs Hb].
  assert (Heq : s0 = s1). { apply state_eq; [rewrite (level_of _ _ _ _ H0), (level_of _ _ _ _ H1); reflexivity|exact Hs|exact Hb|exact (proofs_agree _ _ _ _ _ Hup H0 H1)]. }
  subst s1. rewrite (step_same _ _ _ _ _ _ _ _ _ _ _ Hpub B0 B1) in Hd. tauto.
Qed.

(** a split node has different seeds, and the masked hashes agree *)
Lemma split_shape q s0 s1 w0 w1 : under paths q -> ev0 q s0 w0 -> ev1 q s1 w1 -> split_at q ->
  es_seed s0 <> es_seed s1 /\ xor_vec (hash16 E q (es_seed s0)) (hash16 E q (es_seed s1)) = nth (length q - 1) (cs k0) [].
Proof.
  intros Hu H0 H1 Hsp. pose proof Hu as (Hne & path & Hin & Hp).
  destruct (snoc_cases q) as [->|(p & d & ->)]; [contradiction|].
  destruct (step_inv _ _ _ _ _ H0) as (a0 & y0 & z0 & A0 & _). destruct (step_inv _ _ _ _ _ H1) as (a1 & y1 & z1 & A1 & _).
  destruct (agree_up _ _ _ _ _ _ _ _ _ _ Hu A0 A1 H0 H1 (proofs_agree _ _ _ _ _ Hu H0 H1)) as [_ Hc].
  set (q := p ++ [d]) in *. unfold contribution in Hc.
  pose proof (mask_len k0 q s0 w0 _ Hty0 H0 Hne eq_refl) as M0. pose proof (mask_len k1 q s1 w1 _ Hty1 H1 Hne eq_refl) as M1.
  pose proof (hash_len q (es_seed s0)) as L0. pose proof (hash_len q (es_seed s1)) as L1.
  assert (Hcs : nth (length q - 1) (cs k0) [] <> repeat 0%N 16).
  { apply (Hnz path); [exact Hin|]. apply is_prefix_firstn in Hp. destruct Hp as [_ Hp]. assert (length q <> 0) by (unfold q; rewrite app_length; cbn; lia). lia. }
  assert (Z16 : forall x : bytes, length x = 16 -> xor_vec x (repeat 0%N 16) = x).
  { intros x Hx. do 16 (destruct x as [|? x]; [discriminate|]). destruct x; [|discriminate]. cbn. rewrite !N.lxor_0_r. reflexivity. }
  assert (X0 : forall x : bytes, length x = 16 -> xor_vec x x = repeat 0%N 16).
  { intros x Hx. do 16 (destruct x as [|? x]; [discriminate|]). destruct x; [|discriminate]. cbn. rewrite !N.lxor_nilpotent. reflexivity. }
  assert (Hsd : split_at q -> es_seed s0 <> es_seed s1 \/ es_bit s0 <> es_bit s1).
  { intros (t0 & t1 & x0 & x1 & T0 & T1 & Hd). destruct (evals_fun _ _ _ _ _ _ _ _ H0 T0) as [<- _]. destruct (evals_fun _ _ _ _ _ _ _ _ H1 T1) as [<- _]. exact Hd. }
  specialize (Hsd Hsp). clear Hsp.
  destruct Hco as (Ha & _). specialize (Ha q s0 s1 Hu (reach_evals _ _ _ _ H0) (reach_evals _ _ _ _ H1)).
  assert (Hcs1 : cs k1 = cs k0) by (symmetry; apply Hpub). unfold mask in *. rewrite Hcs1 in *.
  set (C := nth (length q - 1) (cs k0) []) in *. set (h0 := hash16 E q (es_seed s0)) in *. set (h1 := hash16 E q (es_seed s1)) in *.
  assert (Hx : forall a b c : bytes, length a = 16 -> length b = 16 -> length c = 16 -> xor_vec a c = b -> xor_vec a b = c).
  { intros a b c La Lb Lc <-. rewrite xor_vec_cancel_l by lia. apply firstn_all2. lia. }
  destruct (es_bit s0) eqn:B0, (es_bit s1) eqn:B1.
  - exfalso. rewrite (xor_vec_comm h0), (xor_vec_comm h1) in Hc. apply xor_vec_inj_l in Hc; [|lia|lia]. specialize (Ha Hc). tauto.
  - rewrite (Z16 h1 L1) in Hc. split; [|apply Hx; auto]. intros Hs. assert (Hh : h0 = h1) by (unfold h0, h1; rewrite Hs; reflexivity).
    rewrite <- Hh in Hc. apply Hx in Hc; auto. rewrite (X0 h0 L0) in Hc. symmetry in Hc. contradiction.
  - rewrite (Z16 h0 L0) in Hc. symmetry in Hc. split; [|rewrite xor_vec_comm; apply Hx; auto]. intros Hs. assert (Hh : h0 = h1) by (unfold h0, h1; rewrite Hs; reflexivity).
    rewrite Hh in Hc. apply Hx in Hc; auto. rewrite (X0 h1 L1) in Hc. symmetry in Hc. contradiction.
  - exfalso. rewrite !Z16 in Hc by assumption. specialize (Ha Hc). tauto.
Qed.
Lemma split_unique q r : under paths q -> under paths r -> length q = length r -> split_at q -> split_at r -> q = r.
Proof.
  intros Hq Hr Hl Sq Sr. destruct (list_eq_dec bool_dec q r) as [|Hne]; [assumption|exfalso].
  destruct (node_evals q Hq) as (s0 & s1 & w0 & w1 & H0 & H1). destruct (node_evals r Hr) as (u0 & u1 & x0 & x1 & U0 & U1).
  destruct (split_shape _ _ _ _ _ Hq H0 H1 Sq) as [D0 X0]. destruct (split_shape _ _ _ _ _ Hr U0 U1 Sr) as [D1 X1].
  destruct Hco as (_ & Hb & _). rewrite <- Hl in X1.
  apply (Hb q r s0 s1 u0 u1 Hq Hr Hne Hl (reach_evals _ _ _ _ H0) (reach_evals _ _ _ _ H1) (reach_evals _ _ _ _ U0) (reach_evals _ _ _ _ U1) D0 D1). congruence.
Qed.

(** where the states are equal the value is zero *)
Lemma value_zero q s0 s1 x0 x1 : under paths q -> ev0 q s0 (Some x0) -> ev1 q s1 (Some x1) -> ~ split_at q -> vec_add x0 x1 = repeat (of_Z 0) (len + 1).
Proof.
  intros Hu H0 H1 Hn. destruct (not_split _ _ _ _ _ Hn H0 H1) as [Hs Hb]. pose proof Hu as (Hne & _).
  destruct (snoc_cases q) as [->|(p & d & ->)]; [contradiction|].
  destruct (step_inv _ _ _ _ _ H0) as (a0 & y0 & z0 & A0 & B0 & E0). destruct (step_inv _ _ _ _ _ H1) as (a1 & y1 & z1 & A1 & B1 & E1).
  injection E0 as <-. injection E1 as <-.
  destruct (evals_typed E Hok k0 len Hty0 _ _ _ A0) as [T0 _]. destruct (evals_typed E Hok k1 len Hty1 _ _ _ A1) as [T1 _].
  destruct (step_facts _ _ _ _ _ _ _ _ Hok Hty0 T0 B0) as (W0 & C0 & V0). destruct (step_facts _ _ _ _ _ _ _ _ Hok Hty1 T1 B1) as (W1 & C1 & V1).
  destruct Hco as (_ & _ & _ & Hd). rewrite Hs in C0.
  assert (HW := Hd p d a0 a1 (es_seed s1) W0 W1 Hu (reach_evals _ _ _ _ A0) (reach_evals _ _ _ _ A1) C0 C1). subst W1.
  unfold sgn in V0, V1. rewrite Hi0 in V0. rewrite Hi1 in V1. rewrite (level_of _ _ _ _ A0) in V0. rewrite (level_of _ _ _ _ A1), <- Hb, <- (proj1 Hpub), <- V0 in V1.
  rewrite V1, fld_word_off. destruct (evals_typed E Hok k0 len Hty0 _ _ _ H0) as [_ Hl]. rewrite (Hl _ eq_refl). reflexivity.
Qed.

Lemma prefix_trans (p q r : list bool) : is_prefix p q = true -> is_prefix q r = true -> is_prefix p r = true.
Proof. intros H1 H2. apply is_prefix_exists in H1, H2. destruct H1 as [s ->]. destruct H2 as [t ->]. rewrite <- app_assoc. apply is_prefix_app. Qed.
Lemma prefix_refl (p : list bool) : is_prefix p p = true.
Proof. rewrite <- (app_nil_r p) at 2. apply is_prefix_app. Qed.

(** *** the string *)
Lemma split_prefix s : forall q, q <> [] -> under paths (q ++ s) -> split_at (q ++ s) -> split_at q.
Proof.
  induction s as [|d s IH] using rev_ind; intros q Hq Hu Hsp; [rewrite app_nil_r in Hsp; exact Hsp|]. rewrite app_assoc in *.
  assert (Hne : q ++ s <> []) by (destruct q; [contradiction|discriminate]).
  apply IH; [exact Hq|exact (under_parent _ _ Hne Hu)|exact (split_parent _ _ Hne Hu Hsp)].
Qed.
Lemma dec_filter {A} (P : A -> Prop) (l : list A) : (forall x, In x l -> P x \/ ~ P x) -> exists l', forall x, In x l' <-> In x l /\ P x.
Proof.
  induction l as [|a l IH]; intros Hd; [exists []; intros x; cbn; tauto|].
  destruct IH as [l' Hl']; [intros x Hx; apply Hd; right; exact Hx|].
  destruct (Hd a (or_introl eq_refl)) as [Ha|Ha].
  - exists (a :: l'). intros x. cbn. rewrite Hl'. split; [intros [<-|[]]; auto|intros [[<-|Hx] Hp]; auto].
  - exists l'. intros x. rewrite Hl'. cbn. split; [intros []; auto|intros [[<-|Hx] Hp]; [contradiction|auto]].
Qed.
Lemma split_string : exists alpha, forall q, under paths q -> (split_at q <-> is_prefix q alpha = true).
Proof.
  set (nodes := flat_map (fun path => map (fun n => firstn (S n) path) (seq 0 (length path))) paths).
  assert (Hnodes : forall q, In q nodes <-> under paths q).
  { intros q. unfold nodes. rewrite in_flat_map. split.
    - intros (path & Hin & Hq). apply in_map_iff in Hq. destruct Hq as (n & <- & Hn). apply in_seq in Hn. split.
      + destruct path; [cbn in Hn; lia|discriminate].
      + exists path. split; [exact Hin|]. rewrite <- (firstn_skipn (S n) path) at 2. apply is_prefix_app.
    - intros (Hne & path & Hin & Hp). exists path. split; [exact Hin|]. apply is_prefix_firstn in Hp. destruct Hp as [Hp Hl].
      apply in_map_iff. exists (length q - 1). assert (length q <> 0) by (destruct q; [contradiction|discriminate]).
      replace (S (length q - 1)) with (length q) by lia. split; [symmetry; exact Hp|]. apply in_seq. lia. }
  destruct (dec_filter split_at nodes) as [l Hl]; [intros q Hq; apply split_dec; apply Hnodes; exact Hq|].
  destruct (longest l) as [->|(alpha & Ha & Hm)].
  - exists []. intros q Hu. split.
    + intros Hs. destruct (proj2 (Hl q) (conj (proj2 (Hnodes q) Hu) Hs)).
    + destruct Hu as [Hne _]. destruct q; [contradiction|discriminate].
  - exists alpha. apply Hl in Ha. destruct Ha as [Hau Has]. apply Hnodes in Hau. intros q Hu. pose proof Hu as [Hne _]. split.
    + intros Hs. assert (Hle : length q <= length alpha) by (apply Hm, Hl; split; [apply Hnodes; exact Hu|exact Hs]).
      assert (Hf : firstn (length q) alpha <> []) by (destruct q; [contradiction|]; destruct alpha; [cbn in Hle; lia|discriminate]).
      rewrite <- (firstn_skipn (length q) alpha) in Has, Hau.
      assert (Huf : under paths (firstn (length q) alpha)).
      { split; [exact Hf|]. destruct Hau as (_ & path & Hin & Hp). exists path. split; [exact Hin|]. eapply prefix_trans; [apply is_prefix_app|exact Hp]. }
      rewrite (split_unique q _ Hu Huf ltac:(rewrite firstn_length; lia) Hs (split_prefix _ _ Hf Hau Has)).
      rewrite <- (firstn_skipn (length q) alpha) at 2. apply is_prefix_app.
    + intros Hp. apply is_prefix_exists in Hp. destruct Hp as [s ->]. exact (split_prefix s q Hne Hau Has).
Qed.

(** *** the values at the split nodes *)
Variables b0 b1 : list fld.
Hypothesis Hsum : forall path q, In path paths -> q <> [] -> proper_prefix q path ->
  exists x0 l0 r0 x1 l1 r1 s0 sl0 sr0 s1 sl1 sr1,
    ev0 q s0 (Some x0) /\ ev0 (q ++ [false]) sl0 (Some l0) /\ ev0 (q ++ [true]) sr0 (Some r0) /\
    ev1 q s1 (Some x1) /\ ev1 (q ++ [false]) sl1 (Some l1) /\ ev1 (q ++ [true]) sr1 (Some r1) /\
    vec_add x0 x1 = vec_add (vec_add l0 l1) (vec_add r0 r1).
Notation base := (vec_add b0 b1 ++ [of_Z 1]).
Hypothesis Hroot : exists l0 r0 l1 r1 sl0 sr0 sl1 sr1,
    ev0 [false] sl0 (Some l0) /\ ev0 [true] sr0 (Some r0) /\ ev1 [false] sl1 (Some l1) /\ ev1 [true] sr1 (Some r1) /\
    vec_add (vec_add l0 l1) (vec_add r0 r1) = base.

Lemma one_side q d (f : bool -> list fld) B : (forall x s0 s1 x0 x1, ev0 (q ++ [x]) s0 (Some x0) -> ev1 (q ++ [x]) s1 (Some x1) -> vec_add x0 x1 = f x) ->
  under paths (q ++ [d]) -> under paths (q ++ [negb d]) -> split_at (q ++ [d]) -> vec_add (f false) (f true) = B -> f d = B.
Proof.
  intros Hf Hd Hn Hsp HB.
  assert (Hns : ~ split_at (q ++ [negb d])).
  { intros Hc. assert (Hl : length (q ++ [d]) = length (q ++ [negb d])) by (rewrite !app_length; reflexivity).
    pose proof (split_unique _ _ Hd Hn Hl Hsp Hc) as He. apply app_inj_tail in He. destruct He as [_ He]. destruct d; discriminate. }
  destruct (node_evals _ Hd) as (s0 & s1 & x0 & x1 & H0 & H1). destruct (node_evals _ Hn) as (t0 & t1 & y0 & y1 & T0 & T1).
  pose proof (value_zero _ _ _ _ _ Hn T0 T1 Hns) as Hz. rewrite (Hf _ _ _ _ _ T0 T1) in Hz. pose proof (Hf _ _ _ _ _ H0 H1) as Hx.
  destruct (evals_typed E Hok k0 len Hty0 _ _ _ H0) as [_ Hl]. specialize (Hl _ eq_refl).
  assert (Hlf : length (f d) = len + 1) by (rewrite <- Hx, vec_add_length; exact Hl).
  rewrite <- HB. destruct d; cbn [negb] in Hz; rewrite Hz.
  - rewrite vec_add_comm by (rewrite repeat_length; lia). symmetry. apply vec_add_zero. lia.
  - symmetry. apply vec_add_zero. lia.
Qed.
Lemma split_value q : under paths q -> split_at q -> both_sides paths q -> forall s0 s1 x0 x1, ev0 q s0 (Some x0) -> ev1 q s1 (Some x1) -> vec_add x0 x1 = base.
Proof.
  induction q as [|d q IH] using rev_ind; [intros (Hne & _); contradiction|]. intros Hu Hsp Hbs s0 s1 x0 x1 H0 H1.
  assert (Hbs' : both_sides paths q) by (intros p e Hp; apply Hbs; eapply prefix_trans; [exact Hp|apply is_prefix_app]).
  assert (Hn : under paths (q ++ [negb d])) by (apply Hbs; apply prefix_refl).
  destruct (snoc_cases q) as [->|(p & e & Hq)].
  - destruct Hroot as (l0 & r0 & l1 & r1 & sl0 & sr0 & sl1 & sr1 & L0 & R0 & L1 & R1 & HB).
    assert (Hf : forall x t0 t1 y0 y1, ev0 ([] ++ [x]) t0 (Some y0) -> ev1 ([] ++ [x]) t1 (Some y1) -> vec_add y0 y1 = (fun x : bool => if x then vec_add r0 r1 else vec_add l0 l1) x).
    { intros x t0 t1 y0 y1 T0 T1. cbn [app] in T0, T1. destruct x.
      - destruct (evals_fun _ _ _ _ _ _ _ _ T0 R0) as [_ HE0]. destruct (evals_fun _ _ _ _ _ _ _ _ T1 R1) as [_ HE1]. congruence.
      - destruct (evals_fun _ _ _ _ _ _ _ _ T0 L0) as [_ HE0]. destruct (evals_fun _ _ _ _ _ _ _ _ T1 L1) as [_ HE1]. congruence. }
    rewrite (Hf d s0 s1 x0 x1 H0 H1). exact (one_side [] d _ _ Hf Hu Hn Hsp HB).
  - assert (Hne : q <> []) by (rewrite Hq; destruct p; discriminate). clear p e Hq.
    pose proof (split_parent _ _ Hne Hu Hsp) as Hsq. pose proof (under_parent _ _ Hne Hu) as Huq.
    pose proof Hu as (_ & path & Hin & Hp). apply is_prefix_exists in Hp. destruct Hp as [s Hp]. rewrite <- app_assoc in Hp.
    destruct (Hsum path q Hin Hne) as (y0 & l0 & r0 & y1 & l1 & r1 & t0 & sl0 & sr0 & t1 & sl1 & sr1 & Y0 & L0 & R0 & Y1 & L1 & R1 & HB).
    { exists ([d] ++ s). split; [discriminate|exact Hp]. }
    rewrite (IH Huq Hsq Hbs' _ _ _ _ Y0 Y1) in HB. symmetry in HB.
    assert (Hf : forall x t0 t1 y0 y1, ev0 (q ++ [x]) t0 (Some y0) -> ev1 (q ++ [x]) t1 (Some y1) -> vec_add y0 y1 = (fun x : bool => if x then vec_add r0 r1 else vec_add l0 l1) x).
    { clear -L0 L1 R0 R1. intros x t0 t1 y0 y1 T0 T1. destruct x.
      - destruct (evals_fun _ _ _ _ _ _ _ _ T0 R0) as [_ HE0]. destruct (evals_fun _ _ _ _ _ _ _ _ T1 R1) as [_ HE1]. congruence.
      - destruct (evals_fun _ _ _ _ _ _ _ _ T0 L0) as [_ HE0]. destruct (evals_fun _ _ _ _ _ _ _ _ T1 L1) as [_ HE1]. congruence. }
    rewrite (Hf d s0 s1 x0 x1 H0 H1). exact (one_side q d _ _ Hf Hu Hn Hsp HB).
Qed.

End Sound.

Lemma vec_add_shares x y v : length x = length y -> vec_add x y = v -> shares_of x y v.
Proof.
  intros Hl <-. repeat split; [rewrite vec_add_length; reflexivity|rewrite vec_add_length; lia|].
  intros i a b Ha Hb. rewrite vec_add_nth, Ha, Hb. reflexivity.
Qed.

Lemma C61_sound_lemma E k0 k1 len paths tr v0 b0 t v1 b1 :
  env_ok E -> key_typed k0 -> key_typed k1 -> key_idx k0 = false -> key_idx k1 = true -> same_public k0 k1 ->
  (forall path, In path paths -> path <> []) ->
  eval_tree E k0 paths len tr = Ret (v0, b0, t) -> eval_tree E k1 paths len tr = Ret (v1, b1, t) ->
  (forall path i, In path paths -> i < length path -> nth i (cs k0) [] <> repeat 0%N 16) ->
  no_coincidence E k0 k1 len (under paths) ->
  exists alpha, forall i path w0 w1, nth_error paths i = Some path -> nth_error v0 i = Some w0 -> nth_error v1 i = Some w1 ->
    is_prefix path alpha = false \/ both_sides paths path -> shares_of w0 w1 (point_value alpha (vec_add b0 b1) path).
Proof.
  intros Hok Hty0 Hty1 Hi0 Hi1 Hpub Hpne H0 H1 Hnz Hco.
  destruct (C05_lemma _ _ _ _ _ _ _ _ _ _ _ Hok Hty0 Hty1 Hi0 Hi1 H0 H1) as (HS & HR & Hl0 & Hl1 & Hv).
  assert (Hleaf : forall path, In path paths -> path <> [] /\ exists s0 s1 w0 w1, evals E k0 len path s0 (Some w0) /\ evals E k1 len path s1 (Some w1) /\ es_proof s0 = es_proof s1).
  { intros path Hin. split; [exact (Hpne _ Hin)|]. destruct (In_nth_error _ _ Hin) as [i Hi]. assert (Hlt : i < length paths) by (apply nth_error_Some; congruence).
    destruct (nth_error v0 i) as [w0|] eqn:V0; [|apply nth_error_None in V0; lia]. destruct (nth_error v1 i) as [w1|] eqn:V1; [|apply nth_error_None in V1; lia].
    destruct (Hv _ _ _ _ Hi V0 V1) as (pf & S0 & S1). apply share_at_evals in S0; [|exact (Hpne _ Hin)]. apply share_at_evals in S1; [|exact (Hpne _ Hin)].
    destruct S0 as (s0 & A0 & P0). destruct S1 as (s1 & A1 & P1). exists s0, s1, w0, w1. split; [exact A0|]. split; [exact A1|]. congruence. }
  destruct (split_string E Hok k0 k1 len Hty0 Hty1 Hi0 Hi1 Hpub paths Hnz Hco Hleaf) as [alpha Halpha].
  exists alpha. intros i path w0 w1 Hi V0 V1 Hb.
  assert (Hin : In path paths) by (eapply nth_error_In; exact Hi). assert (Hne := Hpne _ Hin).
  assert (Hu : under paths path) by (split; [exact Hne|]; exists path; split; [exact Hin|apply prefix_refl]).
  destruct (Hv _ _ _ _ Hi V0 V1) as (pf & S0 & S1). apply share_at_evals in S0; [|exact Hne]. apply share_at_evals in S1; [|exact Hne].
  destruct S0 as (s0 & A0 & _). destruct S1 as (s1 & A1 & _).
  destruct (evals_typed E Hok k0 len Hty0 _ _ _ A0) as [_ L0]. destruct (evals_typed E Hok k1 len Hty1 _ _ _ A1) as [_ L1].
  specialize (L0 _ eq_refl). specialize (L1 _ eq_refl). apply vec_add_shares; [congruence|].
  destruct HR as (l0 & r0 & l1 & r1 & a & b & a' & b' & SL0 & SR0 & SL1 & SR1 & Hone & -> & ->).
  assert (Hnf : [false] <> []) by discriminate. assert (Hnt : [true] <> []) by discriminate.
  destruct (share_at_evals _ _ _ _ _ _ Hnf SL0) as (sl0 & EL0 & _). destruct (share_at_evals _ _ _ _ _ _ Hnt SR0) as (sr0 & ER0 & _).
  destruct (share_at_evals _ _ _ _ _ _ Hnf SL1) as (sl1 & EL1 & _). destruct (share_at_evals _ _ _ _ _ _ Hnt SR1) as (sr1 & ER1 & _).
  destruct (evals_typed E Hok k0 len Hty0 _ _ _ EL0) as [_ G1]. destruct (evals_typed E Hok k0 len Hty0 _ _ _ ER0) as [_ G2].
  destruct (evals_typed E Hok k1 len Hty1 _ _ _ EL1) as [_ G3]. destruct (evals_typed E Hok k1 len Hty1 _ _ _ ER1) as [_ G4].
  specialize (G1 _ eq_refl). specialize (G2 _ eq_refl). specialize (G3 _ eq_refl). specialize (G4 _ eq_refl).
  assert (Hbl : length (vec_add (firstn len (vec_add l0 r0)) (firstn len (vec_add l1 r1))) = len).
  { rewrite vec_add_length, firstn_length, vec_add_length. lia. }
  unfold point_value. rewrite Hbl. destruct (is_prefix path alpha) eqn:Hp.
  - destruct Hb as [Hb|Hb]; [discriminate|].
    eapply (split_value E Hok k0 k1 len Hty0 Hty1 Hi0 Hi1 Hpub paths Hnz Hco Hleaf); [| |exact Hu| |exact Hb|exact A0|exact A1].
    + intros q0 q Hq Hqn Hpr. destruct (HS _ _ Hq Hqn Hpr) as (x0 & y0 & z0 & x1 & y1 & z1 & c & d & e & c' & d' & e' & X0 & Y0 & Z0 & X1 & Y1 & Z1 & _ & _ & Hs).
      assert (Hsn : forall e, q ++ [e] <> []) by (intros; destruct q; discriminate).
      apply share_at_evals in X0; [|exact Hqn]. apply share_at_evals in X1; [|exact Hqn]. apply share_at_evals in Y0; [|apply Hsn]. apply share_at_evals in Y1; [|apply Hsn].
      apply share_at_evals in Z0; [|apply Hsn]. apply share_at_evals in Z1; [|apply Hsn].
      destruct X0 as (? & X0 & _), X1 as (? & X1 & _), Y0 as (? & Y0 & _), Y1 as (? & Y1 & _), Z0 as (? & Z0 & _), Z1 as (? & Z1 & _). do 12 eexists. eauto 10.
    + do 8 eexists. split; [exact EL0|]. split; [exact ER0|]. split; [exact EL1|]. split; [exact ER1|].
      rewrite vec_add_perm in Hone by lia. rewrite <- vec_add_perm in Hone by lia.
      apply (nth_ext _ _ (of_Z 0) (of_Z 0)); [rewrite app_length, Hbl, !vec_add_length; cbn; lia|].
      intros j Hj. rewrite !vec_add_length in Hj. rewrite <- vec_add_perm by lia.
      destruct (Nat.eq_dec j len) as [->|Hjl].
      * rewrite app_nth2, Hbl, Nat.sub_diag by lia. cbn [nth]. apply (nth_error_nth _ _ _ Hone).
      * rewrite app_nth1 by lia. rewrite !vec_add_get by (rewrite ?firstn_length, ?vec_add_length; lia). rewrite !firstn_nth by lia. rewrite !vec_add_get by lia. reflexivity.
    + apply Halpha; assumption.
  - apply (value_zero E Hok k0 k1 len Hty0 Hty1 Hi0 Hi1 Hpub paths Hco path s0 s1 w0 w1 Hu A0 A1).
    intros Hs. apply Halpha in Hs; [congruence|exact Hu].
Qed.
