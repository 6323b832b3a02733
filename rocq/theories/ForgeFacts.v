(** Changed correction words. *)
From Verif Require Import Base BaseFacts Field Util UtilFacts Env Prg PrgFacts PrgSpecFacts2 Vidpf SpecVidpf SpecTree VidpfFacts VidpfEvalFacts VidpfTreeFacts VidpfTreeFacts3 VidpfTreeFacts4
  Merkle Collect Server Driver SpecCollect SpecServer SpecCheck SpecLevel SpecWhh SpecForge CollectFacts CollectInv ServerFacts DriverFacts RefuteFacts LevelFacts PairFacts HonestFacts.

(** add the i-th vector to the i-th correction word *)
Definition add_to (wd : cor_word * list fld) : cor_word :=
  {| cw_seed := cw_seed (fst wd); cw_bits := cw_bits (fst wd); cw_word := vec_add (cw_word (fst wd)) (snd wd) |}.
Definition add_words (ds : list (list fld)) (k : vidpf_key) : vidpf_key :=
  {| key_idx := key_idx k; root_seed := root_seed k; cor_words := map add_to (combine (cor_words k) ds); cs := cs k |}.
Definition shift (neg b : bool) (w d : list fld) : list fld := if b then (if neg then vec_sub w d else vec_add w d) else w.

Lemma add_words_index ds k i w d : nth_error (cor_words k) i = Some w -> nth_error ds i = Some d -> nth_error (cor_words (add_words ds k)) i = Some (add_to (w, d)).
Proof. intros Hw Hd. cbn. rewrite nth_error_map', nth_error_combine, Hw, Hd. reflexivity. Qed.

Lemma vec_add_assoc a : forall b c, length b = length c -> vec_add a (vec_add b c) = vec_add (vec_add a b) c.
Proof.
  induction a as [|x a IH]; intros [|y b] [|z c] H; cbn in *; try reflexivity; try discriminate.
  rewrite IH by lia. f_equal. ring.
Qed.
Lemma vec_neg_add a : forall d, vec_neg (vec_add a d) = vec_sub (vec_neg a) d.
Proof. induction a as [|x a IH]; intros [|y d]; cbn; try reflexivity. unfold vec_neg in IH. rewrite IH. f_equal. ring. Qed.

Section One.
Variable E : env.
Variables (ds : list (list fld)) (k : vidpf_key) (len : nat).
Hypothesis Hl : length ds = length (cor_words k).
Hypothesis Hcw : forall cw, In cw (cor_words k) -> length (cw_word cw) = len + 1.
Hypothesis Hds : forall d, In d ds -> length d = len + 1.

Lemma eval_bit_add st dir bs st' w d : nth_error ds (es_level st) = Some d -> eval_bit E k st dir bs len = Ret (st', w) ->
  eval_bit E (add_words ds k) st dir bs len = Ret (st', shift (key_idx k) (es_bit st') w d).
Proof.
  intros Hd H.
  assert (Hi : es_level st < length (cor_words k)) by (rewrite <- Hl; apply nth_error_Some; congruence).
  destruct (nth_error (cor_words k) (es_level st)) as [cw|] eqn:Hw; [|apply nth_error_None in Hw; lia].
  pose proof (add_words_index _ _ _ _ _ Hw Hd) as Hw'. apply index_some in Hw, Hw'.
  unfold eval_bit in *. rewrite Hw in H. rewrite Hw'. cbn [add_words key_idx cs] in *.
  bret H as tau Ht. rewrite Ht. cbn [bind].
  bret H as [seed nb] Hsn. cbn [add_to cw_seed cw_bits fst snd bind] in *. rewrite Hsn. cbn [bind].
  bret H as [ns w1] Hcv. rewrite Hcv. cbn [bind].
  bret H as w2 Hw2. bret H as h Hh.
  assert (Hr : forall A (a b : A), Ret a = Ret b -> a = b) by congruence. apply Hr, pair_equal_spec in H. destruct H as [<- <-]. cbn [es_bit].
  destruct nb; cbn [bind negb] in *.
  - apply Hr in Hw2. rewrite Hh. cbn [bind add_to cw_word fst snd]. rewrite vec_add_assoc, <- Hw2.
    + unfold shift. destruct (key_idx k); [|reflexivity]. rewrite vec_neg_add. reflexivity.
    + rewrite (Hds d), (Hcw cw); [reflexivity| |]; [apply index_ret, nth_error_In in Hw; exact Hw|apply nth_error_In in Hd; exact Hd].
  - apply Hr in Hw2. apply Hr in Hh. cbn [bind]. rewrite <- Hw2, <- Hh. reflexivity.
Qed.

Lemma evals_add p st w : evals E k len p st w -> length p <= length ds ->
  evals E (add_words ds k) len p st (match w with None => None | Some x => Some (shift (key_idx k) (es_bit st) x (nth (length p - 1) ds [])) end).
Proof.
  induction 1 as [|p st w d st' w' He IH Hb]; intros Hp; [exact (ev_nil E (add_words ds k) len)|].
  rewrite app_length in Hp. cbn [length] in Hp. pose proof (evals_level _ _ _ _ _ _ He) as Hlv.
  eapply ev_snoc; [apply IH; lia|]. rewrite app_length. cbn [length]. replace (length p + 1 - 1) with (length p) by lia.
  apply eval_bit_add; [|exact Hb]. rewrite Hlv. apply nth_error_nth'. lia.
Qed.
End One.

Lemma shift_get neg b w d j : j < length w -> length d = length w ->
  nth j (shift neg b w d) (of_Z 0) = fadd (nth j w (of_Z 0)) (if b then (if neg then fneg (nth j d (of_Z 0)) else nth j d (of_Z 0)) else of_Z 0).
Proof.
  intros Hj Hd. unfold shift. change (of_Z 0) with fzero. destruct b; [|ring]. destruct neg; [rewrite vec_sub_get by exact Hj|rewrite vec_add_get by exact Hj]; [|reflexivity].
  change (of_Z 0) with fzero. ring.
Qed.
Lemma list_of_nth (l : list fld) n : length l = n -> l = map (fun j => nth j l (of_Z 0)) (seq 0 n).
Proof.
  intros H. apply nth_error_ext. intros i. rewrite nth_error_map'. destruct (Nat.ltb_spec i n) as [Hi|Hi].
  - rewrite nth_error_seq by exact Hi. cbn. apply nth_error_nth'. lia.
  - rewrite (proj2 (nth_error_None l i)) by lia. rewrite (proj2 (nth_error_None _ i)) by (rewrite seq_length; lia). reflexivity.
Qed.
Lemma sum_vec_ext n a b v : length v = n -> (forall j, j < n -> fadd (nth j a (of_Z 0)) (nth j b (of_Z 0)) = nth j v (of_Z 0)) -> sum_vec n a b = v.
Proof. intros Hv H. rewrite (list_of_nth v n Hv). unfold sum_vec. apply map_ext_in. intros j Hj. apply in_seq in Hj. apply H. lia. Qed.

Section Two.
Variable E : env.
Hypothesis Hok : env_ok E.
Variables (k0 k1 : vidpf_key) (alpha : list bool) (beta : list fld).
Hypothesis Hh : honest_pair E k0 k1 alpha beta.
Notation len := (length beta).
Notation bits := (length alpha).
Notation base := (beta ++ [of_Z 1]).
(** the values wanted at the prefixes of alpha, by length *)
Variable t : nat -> list fld.
Hypothesis Ht : forall l, length (t l) = len + 1.

Definition delta (i : nat) : list fld :=
  if es_bit (state_at E k0 len (firstn (S i) alpha)) then vec_sub (t (S i)) base else vec_sub base (t (S i)).
Definition deltas : list (list fld) := map delta (seq 0 bits).
Notation k0' := (add_words deltas k0).
Notation k1' := (add_words deltas k1).

Lemma base_length : length base = len + 1.
Proof. rewrite app_length. reflexivity. Qed.
Lemma delta_length i : length (delta i) = len + 1.
Proof. unfold delta. destruct (es_bit _); rewrite vec_sub_length; [apply Ht|apply base_length]. Qed.
Lemma deltas_length : length deltas = bits.
Proof. unfold deltas. rewrite map_length, seq_length. reflexivity. Qed.
Lemma deltas_nth i : i < bits -> nth i deltas [] = delta i.
Proof. intros Hi. unfold deltas. apply (nth_map_in _ _ i i). rewrite nth_error_seq by exact Hi. reflexivity. Qed.
Lemma deltas_in d : In d deltas -> length d = len + 1.
Proof. unfold deltas. rewrite in_map_iff. intros (i & <- & _). apply delta_length. Qed.
Lemma cw_lengths : (forall cw, In cw (cor_words k0) -> length (cw_word cw) = len + 1) /\ (forall cw, In cw (cor_words k1) -> length (cw_word cw) = len + 1) /\
  length deltas = length (cor_words k0) /\ length deltas = length (cor_words k1).
Proof.
  destruct (honest_lengths E Hok _ _ _ _ Hh) as (Hw & _ & _ & Hf & _). assert (Hc : cor_words k1 = cor_words k0) by apply Hh. rewrite Hc, deltas_length.
  rewrite Forall_forall in Hf. repeat split; try congruence; intros cw Hcw; apply (Hf cw Hcw).
Qed.

(** the states of the two aggregators at a path and what the forged keys give there *)
Lemma forged_at p : p <> [] -> length p <= bits ->
  exists st0 st1 w0 w1, evals E k0 len p st0 (Some w0) /\ evals E k1 len p st1 (Some w1) /\ length w0 = len + 1 /\ length w1 = len + 1 /\
    vec_add w0 w1 = point_value alpha beta p /\ es_bit st1 = (if is_prefix p alpha then negb (es_bit st0) else es_bit st0) /\
    evals E k0' len p st0 (Some (shift false (es_bit st0) w0 (delta (length p - 1)))) /\ evals E k1' len p st1 (Some (shift true (es_bit st1) w1 (delta (length p - 1)))).
Proof.
  intros Hne Hp. destruct (eval_loop_honest_init E Hok k0 k1 alpha beta Hh p Hp) as (st0 & o0 & st1 & o1 & He0 & He1 & Hv & Hl0 & Hl1 & _).
  apply eval_loop_evals_init in He0, He1. destruct He0 as [He0 _]. destruct He1 as [He1 _].
  assert (Hlast : forall o : list (list fld), length o = length p -> exists w, last (map Some o) None = Some w).
  { intros o Ho. destruct o as [|x o] using rev_ind; [destruct p; [contradiction|discriminate]|]. rewrite map_app. cbn [map]. rewrite last_last. eauto. }
  destruct (Hlast _ Hl0) as [w0 Hw0]. destruct (Hlast _ Hl1) as [w1 Hw1]. rewrite Hw0 in He0. rewrite Hw1 in He1. clear Hlast.
  destruct (honest_evals E Hok k0 k1 alpha beta Hh p _ _ _ _ Hp He0 He1) as (_ & Hs & Ha & Hb).
  exists st0, st1, w0, w1. split; [exact He0|]. split; [exact He1|]. split; [exact Ha|]. split; [exact Hb|]. split; [exact Hs|].
  split. { destruct Hv as (_ & _ & _ & _ & _ & _ & Hc). destruct (is_prefix p alpha); [apply Hc|symmetry; apply Hc]. }
  destruct cw_lengths as (C0 & C1 & L0 & L1). destruct Hh as (I0 & I1 & _). pose proof deltas_length as Hdl.
  assert (Hpos : length p - 1 < bits) by (destruct p; [contradiction|cbn in *; lia]).
  split.
  - pose proof (evals_add E deltas k0 len L0 C0 deltas_in p _ _ He0 ltac:(lia)) as H. rewrite I0, (deltas_nth _ Hpos) in H. exact H.
  - pose proof (evals_add E deltas k1 len L1 C1 deltas_in p _ _ He1 ltac:(lia)) as H. rewrite I1, (deltas_nth _ Hpos) in H. exact H.
Qed.

Lemma zeros_get n j : nth j (repeat (of_Z 0) n) (of_Z 0) = of_Z 0.
Proof. apply nth_repeat. Qed.
Lemma forged_value p : p <> [] -> length p <= bits ->
  value_at E len k0' k1' p = if is_prefix p alpha then t (length p) else repeat (of_Z 0) (len + 1).
Proof.
  intros Hne Hp. destruct (forged_at p Hne Hp) as (st0 & st1 & w0 & w1 & He0 & He1 & L0 & L1 & Hs & Hb & H0 & H1).
  unfold value_at. rewrite (proj2 (evals_at _ _ _ _ _ _ H0)), (proj2 (evals_at _ _ _ _ _ _ H1)).
  pose proof (delta_length (length p - 1)) as Hdl.
  apply sum_vec_ext; [destruct (is_prefix p alpha); [apply Ht|apply repeat_length]|]. intros j Hj.
  rewrite !shift_get by lia.
  pose proof (f_equal (fun v => nth j v (of_Z 0)) Hs) as Hsj. cbv beta in Hsj. rewrite vec_add_get in Hsj by lia. unfold point_value in Hsj.
  destruct (is_prefix p alpha) eqn:Hpre.
  - destruct (is_prefix_firstn _ _ Hpre) as [Hpf _].
    assert (Hst : state_at E k0 len (firstn (length p) alpha) = st0) by (rewrite <- Hpf; apply (evals_at _ _ _ _ _ _ He0)).
    assert (Hd : nth j (delta (length p - 1)) (of_Z 0) = if es_bit st0 then fsub (nth j (t (length p)) (of_Z 0)) (nth j base (of_Z 0)) else fsub (nth j base (of_Z 0)) (nth j (t (length p)) (of_Z 0))).
    { unfold delta. replace (S (length p - 1)) with (length p) by (destruct p; [contradiction|cbn; lia]). rewrite Hst.
      destruct (es_bit st0); [rewrite vec_sub_get by (rewrite Ht; exact Hj)|rewrite vec_sub_get by (rewrite base_length; exact Hj)]; reflexivity. }
    rewrite Hd, Hb, <- Hsj. change (of_Z 0) with fzero. destruct (es_bit st0); cbn [negb]; ring.
  - rewrite Hb. rewrite zeros_get in *. etransitivity; [|exact Hsj]. change (of_Z 0) with fzero. destruct (es_bit st0); ring.
Qed.

Lemma forged_proof p : p <> [] -> length p <= bits -> proof_at E k0' len p = proof_at E k0 len p /\ proof_at E k1' len p = proof_at E k1 len p.
Proof.
  intros Hne Hp. destruct (forged_at p Hne Hp) as (st0 & st1 & w0 & w1 & He0 & He1 & _ & _ & _ & _ & H0 & H1).
  rewrite (evals_proof_at _ _ _ _ _ _ H0), (evals_proof_at _ _ _ _ _ _ H1), (evals_proof_at _ _ _ _ _ _ He0), (evals_proof_at _ _ _ _ _ _ He1). auto.
Qed.
(** a component that is wanted unchanged is unchanged at every path of that length *)
Lemma forged_same p j : p <> [] -> length p <= bits -> j <= len -> nth j (t (length p)) (of_Z 0) = nth j base (of_Z 0) ->
  nth j (word_at E k0' len p) (of_Z 0) = nth j (word_at E k0 len p) (of_Z 0) /\ nth j (word_at E k1' len p) (of_Z 0) = nth j (word_at E k1 len p) (of_Z 0).
Proof.
  intros Hne Hp Hj Hsame. destruct (forged_at p Hne Hp) as (st0 & st1 & w0 & w1 & He0 & He1 & L0 & L1 & _ & _ & H0 & H1).
  rewrite (proj2 (evals_at _ _ _ _ _ _ H0)), (proj2 (evals_at _ _ _ _ _ _ H1)), (proj2 (evals_at _ _ _ _ _ _ He0)), (proj2 (evals_at _ _ _ _ _ _ He1)).
  pose proof (delta_length (length p - 1)) as Hdl. rewrite !shift_get by lia.
  assert (Hd : nth j (delta (length p - 1)) (of_Z 0) = of_Z 0).
  { unfold delta. replace (S (length p - 1)) with (length p) by (destruct p; [contradiction|cbn; lia]).
    destruct (es_bit (state_at E k0 len (firstn (length p) alpha))); [rewrite vec_sub_get by (rewrite Ht; lia)|rewrite vec_sub_get by (rewrite base_length; lia)]; rewrite Hsame; change (of_Z 0) with fzero; ring. }
  rewrite Hd. change (of_Z 0) with fzero. split; [destruct (es_bit st0)|destruct (es_bit st1)]; ring.
Qed.

Lemma forged_wf : wf_key bits k0' /\ wf_key bits k1'.
Proof.
  destruct (honest_wf E Hok k0 k1 alpha beta Hh) as [(T0 & A0 & B0) (T1 & A1 & B1)]. destruct cw_lengths as (_ & _ & L0 & L1).
  assert (Hadd : forall k, key_typed k -> length deltas = length (cor_words k) -> bits <= length (cor_words k) -> bits <= length (cs k) -> wf_key bits (add_words deltas k)).
  { intros k (X & Y & Z) Hl Hw Hc. split; [|split; [cbn; rewrite map_length, combine_length; lia|exact Hc]]. split; [exact X|]. split; [|exact Z].
    intros cw Hin. cbn in Hin. apply in_map_iff in Hin. destruct Hin as ([w d] & <- & Hin). cbn. apply Y. eapply in_combine_l; exact Hin. }
  split; apply Hadd; assumption.
Qed.

Section Same.
Hypothesis Hbits : 1 <= bits.
Hypothesis H1 : t 1 = base.
Hypothesis Hmid : forall l, l < bits -> firstn len (t l) = beta.

Lemma mid_same l j : l < bits -> j < len -> nth j (t l) (of_Z 0) = nth j base (of_Z 0).
Proof.
  intros Hl Hj. rewrite app_nth1 by exact Hj. rewrite <- (Hmid l Hl) at 1. rewrite <- (firstn_skipn len (t l)) at 1.
  rewrite app_nth1; [reflexivity|]. rewrite firstn_length, Ht. lia.
Qed.
(** stated for one of the two keys *)
Lemma same_checks_of (first : bool) (k k' : vidpf_key) : 
  root_seed k' = root_seed k ->
  (forall p, p <> [] -> length p <= bits -> proof_at E k' len p = proof_at E k len p) ->
  (forall p j, p <> [] -> length p <= bits -> j <= len -> nth j (t (length p)) (of_Z 0) = nth j base (of_Z 0) -> nth j (word_at E k' len p) (of_Z 0) = nth j (word_at E k len p) (of_Z 0)) ->
  same_checks E first len bits k k'.
Proof.
  intros Hroot Hpf Hw.
  assert (Hpx : forall paths, (forall p, In p paths -> p <> [] /\ length p <= bits) -> proofs_xor E len paths k' = proofs_xor E len paths k).
  { intros paths Hp. unfold proofs_xor. generalize (repeat 0%N 16) as acc. induction paths as [|p paths IH]; intros acc; [reflexivity|]. cbn [fold_left].
    destruct (Hp p (or_introl eq_refl)) as [X Y]. rewrite (Hpf p X Y). apply IH. intros q Hq. apply Hp. right. exact Hq. }
  assert (Hkids : forall paths l, S l <= bits -> (forall p, In p paths -> length p = l) -> forall q, In q (children paths) -> q <> [] /\ length q <= bits).
  { intros paths l Hl Hp q Hq. apply children_in in Hq. destruct Hq as (p & d & Hin & ->). split; [destruct p; discriminate|]. rewrite app_length, (Hp _ Hin). cbn. lia. }
  assert (Hone : forall d j, j <= len -> nth j (word_at E k' len [d]) (of_Z 0) = nth j (word_at E k len [d]) (of_Z 0)).
  { intros d j Hj. apply Hw; [discriminate|exact Hbits|exact Hj|]. cbn [length]. rewrite H1. reflexivity. }
  split; [|split].
  - intros vk nonce proof jr. unfold verifier_share. assert (Hb : beta_share E len k' = beta_share E len k).
    { unfold beta_share, sum_vec. apply map_ext_in. intros j Hj. apply in_seq in Hj. rewrite !Hone by lia. reflexivity. }
    assert (Hj : joint_rand E first len nonce k' jr = joint_rand E first len nonce k jr) by (unfold joint_rand, jr_part; rewrite Hroot; reflexivity).
    rewrite Hb, Hj. reflexivity.
  - intros level paths Hl Hp. unfold verification_string. rewrite (Hpx _ (Hkids paths level ltac:(lia) Hp)). do 3 f_equal.
    unfold check_string_of. do 4 f_equal. apply map_ext_in. intros p Hin. pose proof (Hp p Hin) as Hpl.
    assert (Hkid : forall d j, j <= len -> (level = 0 \/ j < len) -> nth j (word_at E k' len (p ++ [d])) (of_Z 0) = nth j (word_at E k len (p ++ [d])) (of_Z 0)).
    { intros d j Hj Hc. apply Hw; [destruct p; discriminate|rewrite app_length; cbn; lia|exact Hj|]. rewrite app_length, Hpl. cbn [length].
      destruct Hc as [->|Hc]; [cbn [Nat.add]; rewrite H1; reflexivity|]. apply mid_same; lia. }
    unfold used, check_at. destruct (level =? 0) eqn:Hz.
    + apply Nat.eqb_eq in Hz. f_equal. rewrite !(nth_map_in _ _ len len) by (rewrite nth_error_seq by lia; reflexivity).
      rewrite !Hkid by (try lia; left; exact Hz). reflexivity.
    + apply Nat.eqb_neq in Hz. rewrite !firstn_map. apply map_ext_in. intros j Hj. replace (firstn len (seq 0 (len + 1))) with (seq 0 len) in Hj by (rewrite seq_app, firstn_app, seq_length, Nat.sub_diag; cbn [firstn]; rewrite app_nil_r, firstn_all2; [reflexivity|rewrite seq_length; lia]). apply in_seq in Hj.
      rewrite !Hkid by (try lia; right; lia).
      rewrite (Hw p j); [reflexivity|destruct p; [cbn in Hpl; lia|discriminate]|lia|lia|]. rewrite Hpl. apply mid_same; lia.
  - intros paths Hp. apply Hpx. apply (Hkids paths (bits - 1)); [lia|]. intros p Hin. specialize (Hp p Hin). lia.
Qed.
Lemma forged_same_checks : same_checks E true len bits k0 k0' /\ same_checks E false len bits k1 k1'.
Proof.
  split; apply same_checks_of; try reflexivity.
  - intros p Hne Hp. apply (forged_proof p Hne Hp).
  - intros p j Hne Hp Hj Hs. apply (forged_same p j Hne Hp Hj Hs).
  - intros p Hne Hp. apply (forged_proof p Hne Hp).
  - intros p j Hne Hp Hj Hs. apply (forged_same p j Hne Hp Hj Hs).
Qed.
End Same.
End Two.
