(** When the two aggregators disagree about a Prio3 report. *)
From Verif Require Import Base BaseFacts Field Util UtilFacts Env Collect Server Driver Modes PrimeFacts Histogram Prio3 PolyFacts HistFacts HistSound HistRun HistSplit
  SpecVidpf SpecCollect SpecMetrics SpecWhh SpecModes SpecHist SpecPrio3 SpecVerdict FlpFacts VidpfFacts ModesFacts PmFacts PmMain Prio3Facts Prio3Run.

(** reports on which the verdicts agree are counted as in C53 *)
Lemma sum_onto_nth a b j : length b = length a -> nth j (sum_onto a b) (of_Z 0) = fadd (nth j a (of_Z 0)) (nth j b (of_Z 0)).
Proof.
  intros H. unfold sum_onto. destruct (le_lt_dec (length a) j) as [Hj|Hj].
  - rewrite !nth_overflow by (rewrite ?map_length, ?seq_length; lia). change (of_Z 0) with fzero. ring.
  - rewrite (nth_indep _ _ (fadd (nth (length a) a (of_Z 0)) (nth (length a) b (of_Z 0)))) by (rewrite map_length, seq_length; exact Hj).
    rewrite (map_nth (fun i => fadd (nth i a (of_Z 0)) (nth i b (of_Z 0)))), seq_nth by exact Hj. reflexivity.
Qed.
Theorem agreed_histogram len vs : (forall v, In v vs -> fst v = None /\ snd v = None \/ exists a b, v = (Some a, Some b) /\ length a = len /\ length b = len) ->
  same_number vs = true /\ verdict_histogram len vs = sum_histogram len (map agreed vs).
Proof.
  intros H. assert (Hr : rejections (map fst vs) = rejections (map agreed vs) /\ rejections (map snd vs) = rejections (map agreed vs)).
  { unfold rejections. clear -H. induction vs as [|v vs IH]; [split; reflexivity|]. destruct IH as [IH0 IH1]; [intros w Hw; apply H; right; exact Hw|].
    destruct (H v (or_introl eq_refl)) as [[H0 H1]|(a & b & -> & _)].
    - destruct v as [v0 v1]. cbn [fst snd] in H0, H1. subst. cbn [map fst snd agreed filter length]. lia.
    - cbn [map fst snd agreed filter length]. lia. }
  destruct Hr as [R0 R1]. split; [unfold same_number; rewrite R0, R1; apply Nat.eqb_refl|].
  unfold verdict_histogram, sum_histogram. rewrite R0. f_equal. apply map_ext. intros j. f_equal. clear -H.
  induction vs as [|v vs IH]; [cbn; change (of_Z 0) with fzero; ring|]. specialize (IH (fun w Hw => H w (or_intror Hw))).
  destruct (H v (or_introl eq_refl)) as [[H0 H1]|(a & b & -> & La & Lb)].
  - destruct v as [v0 v1]. cbn [fst snd] in H0, H1. subst. exact IH.
  - unfold somes in *. cbn [map fst snd agreed concat app fsum]. rewrite sum_onto_nth by lia. rewrite <- IH. ring.
Qed.

Section Len.
Variable E : env.
Hypothesis Hok : env_ok E.
Variable len : nat.
Hypothesis Hlen : hist_ok len = true.
Local Notation c := (chunk_length_plain len).

(** if one aggregator alone accepts, the check passed with different joint randomness at the two *)
Theorem one_sided vk r0 r1 v : verdicts (p3_env E) len vk r0 r1 v -> (fst v = None <-> snd v <> None) ->
  exists n0 q0 i0 n1 q1 i1, r0 = RSPrio3 n0 q0 i0 /\ r1 = RSPrio3 n1 q1 i1 /\ passed_apart E len vk n0 n1 i0 i1.
Proof.
  clear Hlen. intros (n0 & q0 & i0 & n1 & q1 & i1 & st0 & sh0 & st1 & sh1 & -> & -> & I0 & I1 & _ & _ & S0 & S1) Hone.
  exists n0, q0, i0, n1, q1, i1. split; [reflexivity|]. split; [reflexivity|].
  change (p3_prep_init (p3_env E)) with (p3_concrete_init E) in I0, I1. apply (init_spec E len) in I0. apply (init_spec E len) in I1.
  destruct I0 as (P0 & x0 & p0 & b0 & v0 & In0 & Q0 & -> & ->). destruct I1 as (P1 & x1 & p1 & b1 & v1 & In1 & Q1 & -> & ->).
  destruct (query_length _ _ _ _ _ _ _ _ Q0) as (X0 & L0 & V0). destruct (query_length _ _ _ _ _ _ _ _ Q1) as (X1 & L1 & V1).
  set (s0 := own_seed E 0 _ _) in *. set (s1 := own_seed E 1 _ _) in *.
  assert (Hs0 : length s0 = 16) by apply (own_seed_length E Hok). assert (Hs1 : length s1 = 16) by apply (own_seed_length E Hok). clearbody s0 s1.
  unfold own_verdict in S0, S1. change (p3_msg (p3_env E)) with (p3_concrete_msg E) in S0, S1. change (p3_next (p3_env E)) with p3_concrete_next in S0, S1.
  pose proof (msg_spec E len v0 v1 _ _ V0 V1 (part_length E Hok 0 b0 n0 x0) (part_length E Hok 1 b1 n1 x1)) as Hmsg.
  change (N.of_nat 0) with 0%N in *. change (N.of_nat 1) with 1%N in *. rewrite Hmsg in S0, S1.
  exists x0, p0, b0, x1, p1, b1, s0, s1, v0, v1. split; [exact In0|]. split; [exact In1|].
  destruct (hist_decide c (add_shares v0 v1)) as [[|]|] eqn:Hd.
  2,3: exfalso; destruct (fst v) as [o|] eqn:E0; [destruct S0 as (_ & m & Hm & _); discriminate Hm|]; destruct (snd v) as [o|] eqn:E1; [destruct S1 as (_ & m & Hm & _); discriminate Hm|];
    apply (proj1 Hone eq_refl); reflexivity.
  split; [|auto]. intros <-. set (m := p3_joint_seed E _ _) in *.
  destruct (bytes_eqb s0 m) eqn:Hb.
  - destruct (fst v) as [o|] eqn:E0.
    + destruct (snd v) as [o'|] eqn:E1; [assert (Some o = None) by (apply Hone; discriminate); discriminate|].
      destruct S1 as [S1|(m' & Hm & Hn)]; [discriminate|]. injection Hm as <-. rewrite (next_spec len), Hb in Hn by assumption. discriminate Hn.
    + destruct S0 as [S0|(m' & Hm & Hn)]; [discriminate|]. injection Hm as <-. rewrite (next_spec len), Hb in Hn by assumption. discriminate Hn.
  - destruct (fst v) as [o|] eqn:E0; [destruct S0 as (_ & m' & Hm & Hn); injection Hm as <-; rewrite (next_spec len), Hb in Hn by assumption; discriminate Hn|].
    destruct (snd v) as [o|] eqn:E1; [destruct S1 as (_ & m' & Hm & Hn); injection Hm as <-; rewrite (next_spec len), Hb in Hn by assumption; discriminate Hn|].
    apply (proj1 Hone eq_refl). reflexivity.
Qed.

(** honest shares with a public share q0 q1 that need not be theirs, if the joint randomness comes out right all the same *)
Lemma halves vk cl q0 q1 : p3_fair E len vk cl -> length q0 = 16 -> length q1 = 16 ->
  let own0 := p3_leader_part E len cl in let own1 := p3_part E 1 (p3_helper_blind cl) (pc_nonce cl) (p3_helper_x E len cl) in
  p3_joint_rand E (p3_joint_seed E own0 q1) = p3_joint E len cl -> p3_joint_rand E (p3_joint_seed E q0 own1) = p3_joint E len cl ->
  exists pub i0 i1, p3_shard E len (pc_bucket cl) (pc_nonce cl) (pc_rand cl) = Some (pub, (i0, i1)) /\
  verdicts (p3_env E) len vk (RSPrio3 (pc_nonce cl) (q0 ++ q1) i0) (RSPrio3 (pc_nonce cl) (q0 ++ q1) i1)
    (if bytes_eqb (p3_joint_seed E own0 q1) (p3_joint_seed E own0 own1) then Some (p3_leader_x E len cl) else None,
     if bytes_eqb (p3_joint_seed E q0 own1) (p3_joint_seed E own0 own1) then Some (p3_helper_x E len cl) else None).
Proof.
  intros (Hb & Hr & Hoff) Q0 Q1 own0 own1 J0 J1. destruct (shard_spec E Hok len Hlen cl Hb Hr) as (proof & Hp & Hl & Hsh). do 3 eexists. split; [exact Hsh|].
  destruct (seeds_length cl Hr) as (S1 & S2 & S3 & S4 & S5). set (p1 := p3_helper_proof E len (p3_proof_seed cl)) in *.
  destruct (pub_parts q0 q1 Q0 Q1) as (P1 & P2 & P3).
  assert (Lp1 : length p1 = proof_len c len) by apply (xf_length E Hok). assert (Lx1 : length (p3_helper_x E len cl) = len) by apply (xf_length E Hok).
  assert (Lp0 : length (zip_sub proof p1) = proof_len c len) by (rewrite zip_sub_length; lia).
  assert (Hd : decides c len (p3_leader_x E len cl) (p3_helper_x E len cl) (zip_sub proof p1) p1 (p3_joint E len cl) [p3_point E vk cl] true).
  { unfold p3_proof in Hp. unfold p3_joint in *. rewrite (joint_len E Hok) in Hp |- *. apply (complete c len (c_pos len Hlen) Hlen _ _ _ _ _ _ _ _ _ _ (one_hot_unit len _ Hb) Hp Hoff (leader_shares E Hok len cl)).
    apply shares_swap, zip_sub_shares. rewrite Hl. exact Lp1. }
  destruct Hd as (v0 & v1 & V0 & V1 & Hd). destruct (query_length _ _ _ _ _ _ _ _ V0) as (_ & _ & L0). destruct (query_length _ _ _ _ _ _ _ _ V1) as (_ & _ & L1).
  assert (Lj : forall a b, length (p3_joint_seed E a b) = 16) by (intros; apply (xb_length E Hok)).
  exists (pc_nonce cl), (q0 ++ q1), (enc_vec (p3_leader_x E len cl) ++ enc_vec (zip_sub proof p1) ++ p3_leader_blind cl),
    (pc_nonce cl), (q0 ++ q1), (p3_seed cl ++ p3_proof_seed cl ++ p3_helper_blind cl),
    (enc_vec (p3_leader_x E len cl) ++ p3_joint_seed E own0 q1), (enc_vec v0 ++ own0), (enc_vec (p3_helper_x E len cl) ++ p3_joint_seed E q0 own1), (enc_vec v1 ++ own1).
  split; [reflexivity|]. split; [reflexivity|].
  change (p3_prep_init (p3_env E)) with (p3_concrete_init E). change (p3_decode_share (p3_env E)) with p3_concrete_decode.
  split; [|split; [|split; [|split]]].
  - apply init_spec. split; [exact P1|]. exists (p3_leader_x E len cl), (zip_sub proof p1), (p3_leader_blind cl), v0. split; [apply leader_input; auto using leader_length|].
    change (p3_part E (N.of_nat 0) (p3_leader_blind cl) (pc_nonce cl) (p3_leader_x E len cl)) with own0. unfold own_seed. rewrite P3, J0, (query_len E Hok). split; [exact V0|]. split; reflexivity.
  - apply init_spec. split; [exact P1|]. exists (p3_helper_x E len cl), p1, (p3_helper_blind cl), v1. split; [apply helper_input; assumption|].
    change (p3_part E (N.of_nat 1) (p3_helper_blind cl) (pc_nonce cl) (p3_helper_x E len cl)) with own1. unfold own_seed. rewrite P2, J1, (query_len E Hok). split; [exact V1|]. split; reflexivity.
  - apply (decode_spec len); auto using leader_length. apply (part_length E Hok).
  - apply (decode_spec len); auto. apply (part_length E Hok).
  - unfold own_verdict. change (p3_msg (p3_env E)) with (p3_concrete_msg E). change (p3_next (p3_env E)) with p3_concrete_next. cbn [fst snd].
    rewrite (msg_spec E len) by (assumption || apply (part_length E Hok)). rewrite Hd. split.
    + pose proof (fun m => next_spec len (p3_leader_x E len cl) (p3_joint_seed E own0 q1) m (leader_length E Hok len cl) (Lj _ _)) as Hn.
      destruct (bytes_eqb (p3_joint_seed E own0 q1) _) eqn:B.
      * split; [apply (leader_length E Hok)|]. eexists. split; [reflexivity|]. rewrite Hn, B. reflexivity.
      * right. eexists. split; [reflexivity|]. rewrite Hn, B. reflexivity.
    + pose proof (fun m => next_spec len (p3_helper_x E len cl) (p3_joint_seed E q0 own1) m Lx1 (Lj _ _)) as Hn.
      destruct (bytes_eqb (p3_joint_seed E q0 own1) _) eqn:B.
      * split; [exact Lx1|]. eexists. split; [reflexivity|]. rewrite Hn, B. reflexivity.
      * right. eexists. split; [reflexivity|]. rewrite Hn, B. reflexivity.
Qed.
End Len.
