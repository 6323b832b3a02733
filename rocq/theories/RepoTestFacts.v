(** Proofs for C65. *)
From Verif Require Import Base BaseFacts Field Util UtilFacts Env Prg PrgFacts PrgSpecFacts2 Vidpf SpecVidpf SpecTree VidpfFacts VidpfEvalFacts VidpfTreeFacts VidpfTreeFacts3 VidpfTreeFacts4 VidpfPropFacts VidpfPropFacts2
  Merkle Collect Server Driver SpecCollect SpecServer SpecDriver SpecCheck SpecLevel SpecWhh CollectFacts CollectInv ServerFacts DriverFacts DriverPropFacts RefuteFacts MerkleFacts LevelFacts PairFacts WhhFacts WhhFacts2 WhhFacts3 WhhMain FlpFacts RepoTests SpecTests.
From Coq Require Import Lia.

Lemma fld_eqb_refl a : fld_eqb a a = true.
Proof. apply Z.eqb_refl. Qed.
Lemma some_eq {A} (a b : A) : Some a = Some b -> a = b.
Proof. congruence. Qed.
Lemma flds_eqb_refl l : list_eqb fld_eqb l l = true.
Proof. induction l; [reflexivity|]. cbn. rewrite fld_eqb_refl. exact IHl. Qed.

Lemma testbit_land x i : negb (N.land x (N.shiftl 1 i) =? 0)%N = N.testbit x i.
Proof.
  rewrite N.shiftl_1_l. destruct (N.testbit x i) eqn:E.
  - apply negb_true_iff, N.eqb_neq. intros H. apply (f_equal (fun n => N.testbit n i)) in H.
    rewrite N.land_spec, E, N.pow2_bits_true, N.bits_0 in H. discriminate.
  - apply negb_false_iff, N.eqb_eq. apply N.bits_inj. intros j. rewrite N.land_spec, N.bits_0.
    destruct (N.eq_dec j i) as [->|N]; [now rewrite E|]. rewrite N.pow2_bits_false by auto. apply andb_false_r.
Qed.
Lemma u32_bits n x : n <= 32 -> u32_to_bits n x = Ret (map (fun i => N.testbit x (N.of_nat i)) (seq 0 n)).
Proof.
  intros H. unfold u32_to_bits. rewrite (proj2 (assert_true _)) by (apply Nat.leb_le; exact H). cbn [bind].
  f_equal. apply map_ext. intros i. apply testbit_land.
Qed.
Lemma string_bits s : string_to_bits s = Ret (bits_of s).
Proof.
  unfold string_to_bits. rewrite (mapM_ret _ (fun c => map (fun i => N.testbit c (N.of_nat i)) (seq 0 8))).
  - cbn [bind]. unfold bits_of. rewrite flat_map_concat_map. reflexivity.
  - intros c _. apply u32_bits. lia.
Qed.
Lemma bits_of_length s : length (bits_of s) = 8 * length s.
Proof. unfold bits_of. induction s; [reflexivity|]. cbn [flat_map length]. rewrite app_length, map_length, seq_length, IHs. lia. Qed.

(** *** tests/dpf_test.rs *)
Lemma prefix_firstn : forall (p q : list bool) m, m <= length p -> is_prefix (firstn m p) q = path_eqb (firstn m q) (firstn m p).
Proof.
  induction p as [|x p IH]; intros q m H; cbn [length] in H.
  - assert (m = 0) by lia. subst. reflexivity.
  - destruct m; [reflexivity|]. destruct q as [|y q]; [reflexivity|]. cbn [firstn is_prefix path_eqb list_eqb].
    rewrite IH by lia. unfold path_eqb. f_equal. destruct x, y; reflexivity.
Qed.


Lemma xor_vec_min : forall a b, length (xor_vec a b) = Nat.min (length a) (length b).
Proof. induction a; intros [|y b]; cbn [xor_vec length Nat.min]; auto. Qed.
Lemma eval_bit_proof E k st d bs len st' w : env_ok E -> length (es_proof st) = 16 -> eval_bit E k st d bs len = Ret (st', w) -> length (es_proof st') = 16.
Proof.
  intros Hok Hp H. unfold eval_bit in H. bret H as tau Ht. bret H as sb Hs. destruct sb as [seed nb]. bret H as sw Hc. destruct sw as [ns word].
  bret H as w2 Hw. bret H as h Hh. assert (Hq : es_proof st' = xor_vec (firstn HASH_SIZE (blake3 E h)) (es_proof st)) by (injection H as <- _; reflexivity).
  rewrite Hq, xor_vec_min, firstn_length, Hp. destruct Hok as (_ & Hb & _). rewrite Hb. reflexivity.
Qed.
Lemma eval_loop_proof E k len : env_ok E -> forall p st bs st' bs' out, length (es_proof st) = 16 -> eval_loop E k st bs p len = Ret (st', bs', out) -> length (es_proof st') = 16.
Proof.
  intros Hok. induction p as [|d p IH]; intros st bs st' bs' out Hp H; cbn [eval_loop] in H.
  - injection H as <- _ _. exact Hp.
  - bret H as sw Hb. destruct sw as [st1 w]. bret H as r Hr. destruct r as [[st2 bs2] o2]. injection H as <- _ _.
    eapply IH; [|exact Hr]. eapply eval_bit_proof; eassumption.
Qed.
Lemma eval_proof E k idx pi len out lst pi' : env_ok E -> length pi = 16 -> eval E k idx pi len = Ret (out, lst, pi') -> length pi' = 16.
Proof.
  intros Hok Hp H. unfold eval in H. bret H as u1 H1. bret H as u2 H2. bret H as r Hr. destruct r as [[st bs] o].
  bret H as b Hb. bret H as sl Hl. destruct sl as [st2 l2]. injection H as _ _ <-.
  eapply eval_loop_proof; [exact Hok| |exact Hr]. exact Hp.
Qed.

Section Dpf.
Variable E : env.
Hypothesis Hok : env_ok E.
Variables (seed0 seed1 : bytes) (n : nat) (a : N) (beta : list fld) (k0 k1 : vidpf_key) (alpha : list bool).
Hypothesis S0 : length seed0 = 16.
Hypothesis S1 : length seed1 = 16.
Hypothesis Hb : length beta = 1.
Hypothesis Hg : gen E seed0 seed1 alpha beta = Ret (k0, k1).
Hypothesis Ha : length alpha = n.

Lemma inner_ok idx : length idx = n -> forall js pi, length pi = 16 -> Forall (fun j => 2 <= j <= n) js ->
  exists pi', dpf_inner E k0 k1 alpha idx beta js (pi, pi) = Ret (pi', pi') /\ length pi' = 16.
Proof.
  intros Hi. induction js as [|j js IH]; intros pi Hp Hj; unfold dpf_inner; cbn [foldM].
  - eauto.
  - inversion Hj as [|x l Hj1 Hj2]; subst x l. cbn [fst snd].
    destruct (C03_lemma E seed0 seed1 alpha beta k0 k1 (firstn j idx) pi Hok S0 S1 Hg) as (out0 & l0 & out1 & l1 & pi' & E0 & E1 & L0 & L1 & V & _).
    { rewrite firstn_length. lia. }
    { exact Hp. }
    rewrite Hb in E0, E1. rewrite E0. cbn [bind]. rewrite E1. cbn [bind].
    rewrite firstn_length in L0, L1.
    destruct (nth_error out0 (j - 2)) as [w0|] eqn:N0; [|apply nth_error_None in N0; lia].
    destruct (nth_error out1 (j - 2)) as [w1|] eqn:N1; [|apply nth_error_None in N1; lia].
    specialize (V _ _ _ N0 N1). rewrite firstn_firstn in V.
    replace (Nat.min (j - 2 + 1) j) with (j - 1) in V by lia.
    destruct V as (V0 & V1 & V).
    assert (PL : length (point_value alpha beta (firstn (j - 1) idx)) = 2).
    { unfold point_value. destruct (is_prefix _ _); rewrite ?app_length, ?repeat_length; cbn [length]; lia. }
    destruct w0 as [|x0 w0]; [cbn in V0; lia|]. destruct w1 as [|x1 w1]; [cbn in V1; lia|].
    specialize (V 0 x0 x1 eq_refl eq_refl).
    unfold index at 1. rewrite N0. cbn [bind]. unfold index at 1. cbn [nth_error bind].
    unfold index at 1. rewrite N1. cbn [bind]. unfold index at 1. cbn [nth_error bind].
    destruct beta as [|b beta']; [discriminate|]. unfold index at 1. cbn [nth_error bind].
    rewrite <- prefix_firstn by lia.
    rewrite (proj2 (assert_true _)).
    2:{ unfold point_value in V. destruct (is_prefix (firstn (j - 1) idx) alpha); cbn [app nth_error length Nat.add repeat] in V; apply some_eq in V; rewrite <- V; apply fld_eqb_refl. }
    cbn [bind]. apply IH; [|exact Hj2].
    eapply eval_proof; eassumption.
Qed.

Lemma dpf_loop : n <= 32 -> forall is pi, length pi = 16 ->
  exists pi', foldM (fun pis i =>
    let! alpha_eval := u32_to_bits n (N.of_nat i) in
    let! pis := dpf_inner E k0 k1 alpha alpha_eval beta (seq 2 (n - 1 - 2)) pis in
    do! assert_ (bytes_eqb (fst pis) (snd pis));
    Ret pis) (pi, pi) is = Ret (pi', pi').
Proof.
  intros Hn. induction is as [|i is IH]; intros pi Hp; cbn [foldM]; [eauto|].
  rewrite u32_bits by exact Hn. cbn [bind].
  destruct (inner_ok (map (fun j => N.testbit (N.of_nat i) (N.of_nat j)) (seq 0 n))) with (js := seq 2 (n - 1 - 2)) (pi := pi) as (pi' & Hi & Hp').
  - rewrite map_length, seq_length. reflexivity.
  - exact Hp.
  - apply Forall_forall. intros j Hj. apply in_seq in Hj. lia.
  - rewrite Hi. cbn [bind fst snd]. rewrite (proj2 (assert_true _)) by apply bytes_eqb_refl. cbn [bind]. apply IH. exact Hp'.
Qed.
End Dpf.

Lemma test_dpf_lemma E seed0 seed1 n a beta : env_ok E -> length seed0 = 16 -> length seed1 = 16 -> 1 <= n <= 32 -> length beta = 1 ->
  test_dpf E seed0 seed1 n a beta = Ret tt.
Proof.
  intros Hok S0 S1 Hn Hb. unfold test_dpf. rewrite u32_bits by lia. cbn [bind].
  set (alpha := map _ (seq 0 n)). assert (Ha : length alpha = n) by (unfold alpha; rewrite map_length, seq_length; reflexivity).
  destruct (gen_total E Hok seed0 seed1 alpha beta S0 S1) as (k0 & k1 & Hg). rewrite Hg. cbn [bind].
  destruct (dpf_loop E Hok seed0 seed1 n beta k0 k1 alpha S0 S1 Hb Hg Ha) with (is := seq 0 (2 ^ n)) (pi := firstn 16 (blake3 E [48%N])) as (pi' & ->).
  - lia.
  - rewrite firstn_length. destruct Hok as (_ & H & _). rewrite H. reflexivity.
  - reflexivity.
Qed.

(** *** the test of eval_tree *)
Lemma shares_add : forall v w0 w1, shares_of w0 w1 v -> vec_add w0 w1 = v.
Proof.
  intros v w0 w1 (H0 & H1 & H). revert w0 w1 H0 H1 H. induction v as [|x v IH]; intros [|a w0] [|b w1] H0 H1 H; try discriminate; [reflexivity|].
  cbn [vec_add]. f_equal.
  - specialize (H 0 a b eq_refl eq_refl). cbn in H. congruence.
  - apply IH; [now inversion H0|now inversion H1|]. intros i. exact (H (S i)).
Qed.

Lemma prefix_same : forall p q : list bool, length p = length q -> is_prefix p q = path_eqb p q.
Proof.
  induction p as [|x p IH]; intros [|y q] H; try discriminate; [reflexivity|]. cbn [is_prefix path_eqb list_eqb].
  rewrite IH by (now inversion H). destruct x, y; reflexivity.
Qed.

Lemma test_tree_lemma E seed0 seed1 s attributes beta : env_ok E -> length seed0 = 16 -> length seed1 = 16 -> s <> [] ->
  Forall (fun a => length a = length s) attributes ->
  test_tree E seed0 seed1 s attributes beta (map (tree_value s beta) attributes) = Ret tt.
Proof.
  intros Hok S0 S1 Hs Hat. unfold test_tree, gen_from_str. rewrite string_bits. cbn [bind].
  destruct (C10_lemma E seed0 seed1 (bits_of s) beta Hok S0 S1) as (k0 & k1 & Hg & I0 & I1 & _).
  rewrite Hg. cbn [bind]. rewrite I0, I1. cbn [Bool.eqb assert_ bind].
  rewrite (mapM_ret _ bits_of) by (intros; apply string_bits). cbn [bind].
  assert (NE : bits_of s <> []) by (intros H; apply (f_equal (@length bool)) in H; rewrite bits_of_length in H; destruct s; [contradiction|cbn in H; lia]).
  assert (LS : 1 <= length (bits_of s)) by (destruct (bits_of s); [contradiction|cbn; lia]).
  destruct (C04_lemma E seed0 seed1 (bits_of s) beta k0 k1 (map bits_of attributes) [] Hok S0 S1 Hg NE) as (v0 & b0 & v1 & b1 & t & E0 & E1 & L0 & L1 & V & B).
  { intros p Hp. apply in_map_iff in Hp. destruct Hp as (a & <- & Hin). rewrite Forall_forall in Hat. specialize (Hat a Hin).
    rewrite !bits_of_length, Hat in *. lia. }
  rewrite E0, E1. cbn [bind]. rewrite map_length in L0, L1. rewrite L0, L1. pose proof B as (B0 & B1 & _). rewrite B0, B1, !Nat.eqb_refl.
  cbn [assert_ bind]. rewrite (shares_add _ _ _ B), flds_eqb_refl. cbn [assert_ bind].
  assert (VS : map (fun vs => vec_add (fst vs) (snd vs)) (combine v0 v1) = map (tree_value s beta) attributes).
  { clear E0 E1. revert v0 v1 L0 L1 V. clear - Hat. induction attributes as [|a l IH]; intros [|x v0] [|y v1] L0 L1 V; try discriminate; [reflexivity|].
    inversion Hat as [|q r Ha Hl]; subst q r. cbn [combine map fst snd]. f_equal.
    - rewrite (shares_add _ _ _ (V 0 _ _ _ eq_refl eq_refl eq_refl)). unfold point_value, tree_value. rewrite prefix_same; [reflexivity|]. rewrite !bits_of_length, Ha. reflexivity.
    - apply IH; [exact Hl|now inversion L0|now inversion L1|]. intros i. exact (V (S i)). }
  rewrite VS. rewrite (mapM_ret _ (fun _ => tt)).
  - cbn [bind]. rewrite bytes_eqb_refl. reflexivity.
  - intros [x y] Hin. cbn [fst snd]. assert (x = y) as ->.
    { clear - Hin. revert Hin. generalize (map (tree_value s beta) attributes) as l. induction l as [|z l IH]; intros H; [destruct H|]; destruct H as [H|H]; [congruence|auto]. }
    rewrite flds_eqb_refl. reflexivity.
Qed.

(** *** tests/collect_test.rs *)
Definition srv (c : coll) : server := {| s_id := 0%Z; s_bits := None; s_coll := c; s_poison := false |}.

Section Levels.
Variable E : env.
Hypothesis Hok : env_ok E.
Variables (len bits : nat) (L : list entry).
Hypothesis Hgood : Forall (good_entry E len bits) L.
Hypothesis Hn : (Z.of_nat (length L) < 2 ^ 64)%Z.
Hypothesis Hex : existsb e_ok L = true.
Variable thr : Z.
Hypothesis Hthr : (1 <= thr)%Z.

Definition cinv paths (cs : coll * coll) : Prop := pair_inv E len bits L paths (srv (fst cs)) (srv (snd cs)).

Lemma crawl_coll first reps paths level c root split : side E len bits first reps paths (srv c) -> paths <> [] -> (forall p, In p paths -> length p = level) ->
  (forall p, length p <= bits -> defined_at E len reps p) -> level < bits ->
  merkle_part E (strings_of E first len level paths reps) split [] false = Ret root ->
  tree_crawl E c split [] false = Ret (crawled E c paths, (map tn_value (map (mknode E len reps) (children paths)), fst root, snd root)) /\
  side E len bits first reps (children paths) (srv (crawled E c paths)) /\ c_frontier (crawled E c paths) = map (mknode E len reps) (children paths).
Proof.
  clear Hgood Hn Hex Hthr Hok.
  intros Hs Hne Hp Hd Hl Hm. pose proof Hs as (H1 & H2 & H3 & H4 & H5 & H6). cbn [srv s_coll] in H2, H3, H4, H5, H6. split.
  - rewrite (tree_crawl_ret E c paths level bits split false).
    + rewrite H2, H3, H5, Hm. destruct root as [r i]. reflexivity.
    + change c with (s_coll (srv c)). eapply side_ready; try eassumption. lia.
    + rewrite H3, H5. eapply side_crawlable; eassumption.
    + exact H4.
    + exact Hl.
  - exact (side_crawled E len bits first reps paths (srv c) Hs).
Qed.
Lemma prune_coll first reps paths c (f : list bool -> bool) : side E len bits first reps paths (srv c) -> c_frontier c = map (mknode E len reps) paths ->
  exists t, tree_prune c (map f paths) = Ret t /\ side E len bits first reps (filter f paths) (srv t) /\
  c_frontier t = map (mknode E len reps) (filter f paths) /\ c_final t = c_final c.
Proof.
  clear Hgood Hn Hex Hthr Hok.
  intros (H1 & H2 & H3 & H4 & H5 & H6) Hfr. eexists. split.
  - rewrite tree_prune_spec, Hfr, !map_length, Nat.eqb_refl. reflexivity.
  - assert (Hs : select (map f paths) (map (mknode E len reps) paths) = map (mknode E len reps) (filter f paths)) by (rewrite <- select_filter, select_map; reflexivity).
    unfold side. cbn. rewrite Hs. split; [|split; reflexivity]. repeat (split; [assumption|]). apply fronts_mknode.
Qed.

Lemma test_level_ok paths level cs : cinv paths cs -> paths <> [] -> (forall p, In p paths -> length p = level) -> level < bits ->
  exists cs', test_level E len thr cs = Ret cs' /\ cinv (filter (heavy thr L) (children paths)) cs'.
Proof.
  clear Hthr.
  destruct cs as [c0 c1]. intros [H0 H1] Hne Hp Hl. cbn [fst snd] in H0, H1.
  assert (Hd0 : forall p, length p <= bits -> defined_at E len (held0 L) p) by (intros p Hpl; apply (good_defined E Hok len bits L Hgood p Hpl)).
  assert (Hd1 : forall p, length p <= bits -> defined_at E len (held1 L) p) by (intros p Hpl; apply (good_defined E Hok len bits L Hgood p Hpl)).
  pose proof (strings_equal E Hok len bits L Hgood level paths Hp Hl) as Hstr.
  pose proof (strings_nonempty E len L true level paths e_r0 Hex) as Hsne. fold (held0 L) in Hsne.
  assert (Hm : exists root, merkle_part E (strings_of E true len level paths (held0 L)) 1 [] false = Ret ([root], [0])).
  { rewrite merkle_one by exact Hsne. set (hs := strings_of E true len level paths (held0 L)) in *.
    destruct (merkle_root_some E (firstn (2 ^ clog2f E (length hs)) hs)) as [root Hr].
    - pose proof (pow2_ge1 (clog2f E (length hs))). destruct (2 ^ clog2f E (length hs)); [lia|]. destruct hs; [contradiction|discriminate].
    - rewrite Hr. cbn [unwrap bind]. eauto. }
  destruct Hm as [root Hm0]. pose proof Hm0 as Hm1. rewrite Hstr in Hm1.
  destruct (crawl_coll true (held0 L) paths level c0 _ 1 H0 Hne Hp Hd0 Hl Hm0) as (C0 & S0 & F0).
  destruct (crawl_coll false (held1 L) paths level c1 _ 1 H1 Hne Hp Hd1 Hl Hm1) as (C1 & S1 & F1).
  destruct (prune_coll _ _ _ _ (heavy thr L) S0 F0) as (t0 & P0 & T0 & _ & _).
  destruct (prune_coll _ _ _ _ (heavy thr L) S1 F1) as (t1 & P1 & T1 & _ & _).
  exists (t0, t1). split; [|split; assumption].
  unfold test_level. cbn [fst snd]. rewrite C0. cbn [bind]. rewrite C1. cbn [bind].
  rewrite (proj2 (assert_true _)) by (rewrite !map_length; apply Nat.eqb_refl). cbn [bind]. rewrite (keep_heavy E Hok len bits L Hgood Hn).
  2:{ intros q Hq. apply children_in in Hq. destruct Hq as (p & d & Hin & ->). split; [destruct p; discriminate|]. rewrite app_length, (Hp _ Hin). cbn. lia. }
  cbn [bind]. rewrite P0. cbn [bind]. rewrite P1. reflexivity.
Qed.

Lemma test_levels_ok : forall k level cs, cinv (frontier_at thr L level) cs -> level + k <= bits ->
  (forall l, level <= l < level + k -> frontier_at thr L l <> []) ->
  exists cs', test_levels E len thr k cs = Ret cs' /\ cinv (frontier_at thr L (level + k)) cs'.
Proof.
  clear Hthr.
  induction k as [|k IH]; intros level cs Hi Hk Hne; cbn [test_levels].
  - rewrite Nat.add_0_r. eauto.
  - destruct (test_level_ok (frontier_at thr L level) level cs Hi) as (cs1 & Hr & Hi').
    + apply Hne. lia.
    + apply frontier_length.
    + lia.
    + rewrite Hr. cbn [bind]. rewrite frontier_next in Hi'. destruct (IH (S level) cs1 Hi') as (u & Hu & Hi2); [lia|intros l Hl; apply Hne; lia|].
      exists u. split; [exact Hu|]. replace (level + S k) with (S level + k) by lia. exact Hi2.
Qed.

Lemma last_coll first reps paths c : side E len bits first reps paths (srv c) -> (forall p, In p paths -> length p < bits) ->
  (forall p, length p <= bits -> defined_at E len reps p) ->
  exists t, tree_crawl_last E c = Ret (t, map tn_value (map (mknode E len reps) (children paths))) /\
    side E len bits first reps (children paths) (srv t) /\ c_frontier t = map (mknode E len reps) (children paths) /\
    c_final t = map (fun hr => proofs_xor E len (children paths) (key_of (snd hr))) (filter (fun hr => fst hr) reps).
Proof.
  clear Hgood Hn Hex Hthr Hok.
  intros (H1 & H2 & H3 & H4 & H5 & H6) Hp Hd. cbn [srv s_coll] in *. exists (crawled_last E c paths). split.
  - rewrite (tree_crawl_last_ret E c paths).
    + rewrite H3, H5. reflexivity.
    + rewrite H3, H5. exact H6.
    + intros p Hin. rewrite H3, H5. apply Hd. specialize (Hp _ Hin). lia.
    + rewrite H3, H5. intros p Hin. specialize (Hp _ Hin). split; apply Hd; rewrite app_length; cbn; lia.
  - unfold side, crawled_last. cbn. rewrite H3, H5. split; [|split; reflexivity]. repeat (split; [assumption||reflexivity|]). apply fronts_mknode.
Qed.

Lemma test_last_ok n paths cs : cinv paths cs -> (forall p, In p paths -> length p < bits) ->
  test_last E len thr n cs = Ret (map (exact_result L len) (filter (heavy thr L) (children paths))).
Proof.
  clear Hex.
  destruct cs as [c0 c1]. intros [H0 H1] Hp. cbn [fst snd] in H0, H1.
  assert (Hd0 : forall p, length p <= bits -> defined_at E len (held0 L) p) by (intros p Hpl; apply (good_defined E Hok len bits L Hgood p Hpl)).
  assert (Hd1 : forall p, length p <= bits -> defined_at E len (held1 L) p) by (intros p Hpl; apply (good_defined E Hok len bits L Hgood p Hpl)).
  assert (Hch : forall q, In q (children paths) -> q <> [] /\ length q <= bits).
  { intros q Hq. apply children_in in Hq. destruct Hq as (p & d & Hin & ->). split; [destruct p; discriminate|]. specialize (Hp _ Hin). rewrite app_length. cbn. lia. }
  destruct (last_coll _ _ _ _ H0 Hp Hd0) as (a0 & HA0 & HS0 & HF0 & HL0). destruct (last_coll _ _ _ _ H1 Hp Hd1) as (a1 & HA1 & HS1 & HF1 & HL1).
  destruct (prune_coll _ _ _ _ (heavy thr L) HS0 HF0) as (t0 & HP0 & HT0 & HR0 & _).
  destruct (prune_coll _ _ _ _ (heavy thr L) HS1 HF1) as (t1 & HP1 & HT1 & HR1 & _).
  unfold test_last. cbn [fst snd]. rewrite HA0. cbn [bind]. rewrite HA1. cbn [bind].
  assert (HG : get_proofs a0 0 n = get_proofs a1 0 n).
  { unfold get_proofs. rewrite HL0, HL1, (finals_equal E Hok len bits L Hgood) by exact Hch. reflexivity. }
  rewrite HG. rewrite (proj2 (assert_true _)) by (rewrite !map_length; apply Nat.eqb_refl). cbn [bind].
  rewrite (proj2 (assert_true _)) by apply Nat.eqb_refl. cbn [bind]. rewrite forallb_same. cbn [assert_ bind].
  rewrite (keep_heavy E Hok len bits L Hgood Hn) by exact Hch. cbn [bind]. rewrite HP0. cbn [bind]. rewrite HP1. cbn [bind].
  unfold final_shares. rewrite HR0, HR1, !map_map. cbn [mknode tn_path tn_value].
  rewrite final_values_spec, !map_length, Nat.eqb_refl. cbn [andb].
  assert (Hpe : forall l : list (list bool), forallb (fun rr : result * result => path_eqb (res_path (fst rr)) (res_path (snd rr)))
      (combine (map (fun p => {| res_path := p; res_value := sum_honest (len + 1) (words_of E len (held0 L) p) (held0 L) |}) l)
               (map (fun p => {| res_path := p; res_value := sum_honest (len + 1) (words_of E len (held1 L) p) (held1 L) |}) l)) = true).
  { induction l as [|x l IH]; [reflexivity|]. cbn [map combine forallb fst snd res_path]. rewrite (proj2 (path_eqb_eq x x)) by reflexivity. exact IH. }
  rewrite Hpe. rewrite reconstruct_maps.
  f_equal. change (fun a => {| res_path := a; res_value := sum_vec (len + 1) (sum_honest (len + 1) (words_of E len (held0 L) a) (held0 L)) (sum_honest (len + 1) (words_of E len (held1 L) a) (held1 L)) |})
    with (fun a => {| res_path := a; res_value := sum_vec (len + 1) (val0 E len L a) (val1 E len L a) |}).
  rewrite (map_ext_in _ (exact_result L len)).
  - assert (Hall : forall l, (forall x, In x l -> counter_nonzero len x = true) -> filter (counter_nonzero len) l = l).
    { induction l as [|x l IH]; intros H; [reflexivity|]. cbn [filter]. rewrite (H x (or_introl eq_refl)), IH by (intros; apply H; right; assumption). reflexivity. }
    apply Hall. intros x Hx. apply in_map_iff in Hx. destruct Hx as (p & <- & Hin). apply filter_In in Hin. destruct Hin as [_ Hh].
    unfold counter_nonzero, exact_result. cbn [res_value]. rewrite app_nth2, map_length, seq_length, Nat.sub_diag by (rewrite map_length, seq_length; lia). cbn [nth].
    rewrite (fval_count L Hn). unfold heavy in Hh. apply Z.leb_le in Hh. apply negb_true_iff, Z.eqb_neq. lia.
  - intros p Hin. apply filter_In in Hin. destruct Hin as [Hin _]. destruct (Hch _ Hin) as [Hne Hpl]. unfold exact_result. f_equal.
    apply (exact_value E Hok len bits L Hgood {| cfg_bits := None; cfg_hist := len; cfg_add_batch := 0; cfg_query_batch := 0; cfg_thr := 0 |} eq_refl); assumption.
Qed.
End Levels.

(** *** the voters as reports *)
Definition keys_of (E : env) (v : voter) : vidpf_key * vidpf_key :=
  match gen E (v_seed0 v) (v_seed1 v) (bits_of (v_str v)) (v_beta v) with Ret kk => kk | Panic _ => let k := {| key_idx := false; root_seed := []; cor_words := []; cs := [] |} in (k, k) end.
Definition ballot_entry (E : env) (v : voter) : entry :=
  {| e_ok := true; e_r0 := bare_report (fst (keys_of E v)); e_r1 := bare_report (snd (keys_of E v)); e_alpha := bits_of (v_str v); e_beta := v_beta v |}.

Section Run.
Variable E : env.
Hypothesis Hok : env_ok E.
Variables (len chars : nat) (vs : list voter) (vk : bytes).
Hypothesis Hv : Forall (good_voter len chars) vs.
Notation L := (map (ballot_entry E) vs).

Lemma voter_keys v : good_voter len chars v -> exists k0 k1, gen E (v_seed0 v) (v_seed1 v) (bits_of (v_str v)) (v_beta v) = Ret (k0, k1) /\ keys_of E v = (k0, k1).
Proof.
  clear Hv.
  intros (S0 & S1 & _). destruct (gen_total E Hok (v_seed0 v) (v_seed1 v) (bits_of (v_str v)) (v_beta v) S0 S1) as (k0 & k1 & Hg).
  exists k0, k1. split; [exact Hg|]. unfold keys_of. rewrite Hg. reflexivity.
Qed.

Lemma voters_good : Forall (good_entry E len (8 * chars)) L.
Proof.
  apply Forall_forall. intros e He. apply in_map_iff in He. destruct He as (v & <- & Hin). rewrite Forall_forall in Hv. specialize (Hv v Hin).
  destruct (voter_keys v Hv) as (k0 & k1 & Hg & Hk). destruct Hv as (S0 & S1 & Hs & Hbl).
  assert (HA : length (bits_of (v_str v)) = 8 * chars) by (rewrite bits_of_length, Hs; reflexivity).
  pose proof (gen_honest E _ _ _ _ _ _ S0 S1 Hg) as Hh. destruct (honest_wf E Hok _ _ _ _ Hh) as [W0 W1]. rewrite HA in W0, W1.
  unfold good_entry, ballot_entry. cbn [e_ok e_r0 e_r1 e_alpha e_beta]. rewrite Hk. cbn [fst snd].
  split; [apply wf_of; exact W0|]. split; [apply wf_of; exact W1|]. intros _. split; [|auto]. exists (v_seed0 v), (v_seed1 v). auto.
Qed.

Lemma add_voters : forall l c0 c1, Forall (good_voter len chars) l ->
  exists d0 d1, foldM (add_voter E) (c0, c1) l = Ret (d0, d1) /\
    c_sid d0 = c_sid c0 /\ c_len d0 = c_len c0 /\ c_depth d0 = c_depth c0 /\ c_vk d0 = c_vk c0 /\ c_reports d0 = c_reports c0 ++ held0 (map (ballot_entry E) l) /\
    c_sid d1 = c_sid c1 /\ c_len d1 = c_len c1 /\ c_depth d1 = c_depth c1 /\ c_vk d1 = c_vk c1 /\ c_reports d1 = c_reports c1 ++ held1 (map (ballot_entry E) l).
Proof.
  clear Hv.
  induction l as [|v l IH]; intros c0 c1 Hl; cbn [foldM].
  - exists c0, c1. cbn. rewrite !app_nil_r. repeat split.
  - inversion Hl as [|x y Hv Hl']; subst x y. destruct (voter_keys v Hv) as (k0 & k1 & Hg & Hk).
    unfold add_voter at 1, gen_from_str. rewrite string_bits. cbn [bind]. rewrite Hg. cbn [bind fst snd].
    destruct (IH (add_report_share c0 (bare_report k0)) (add_report_share c1 (bare_report k1)) Hl') as (d0 & d1 & Hf & A1 & A2 & A3 & A4 & A5 & B1 & B2 & B3 & B4 & B5).
    exists d0, d1. split; [exact Hf|]. rewrite A1, A2, A3, A4, A5, B1, B2, B3, B4, B5. cbn. rewrite Hk. cbn [fst snd]. rewrite <- !app_assoc. cbn [app].
    repeat split.
Qed.

Lemma count_voters p : count L p = voters_num vs p.
Proof.
  clear Hv Hok.
  unfold count, voters_num, supporters, voters_at. f_equal. induction vs as [|v l IH]; [reflexivity|]. cbn [map filter ballot_entry e_ok e_alpha andb].
  destruct (is_prefix p (bits_of (v_str v))); cbn [length]; congruence.
Qed.
Lemma weight_voters p j : weight L p j = voters_sum vs p j.
Proof.
  clear Hv Hok.
  unfold weight, voters_sum, supporters, voters_at. f_equal. induction vs as [|v l IH]; [reflexivity|]. cbn [map filter ballot_entry e_ok e_alpha andb].
  destruct (is_prefix p (bits_of (v_str v))); cbn [map]; [f_equal; exact IH|exact IH].
Qed.
Lemma heavy_enough thr p : heavy thr L p = enough thr vs p.
Proof. clear Hv Hok. unfold heavy, enough. rewrite count_voters. reflexivity. Qed.

Lemma test_collect_lemma thr n : hist_ok len = true -> (1 <= thr)%Z -> 1 <= chars -> vs <> [] -> (Z.of_nat (length vs) < 2 ^ 64)%Z ->
  (forall l, 1 <= l -> l + 1 < 8 * chars -> exists p, length p = l /\ enough thr vs p = true) ->
  test_collect E len thr vk (8 * chars) n vs = Ret (map (voters_result vs len) (filter (enough thr vs) (all_paths (8 * chars)))).
Proof.
  intros Hh Hthr Hc Hne Hn Hfr. unfold test_collect. rewrite Hh. cbn [negb].
  destruct (add_voters vs (coll_new len 0 (Some (8 * chars)) vk) (coll_new len 1 (Some (8 * chars)) vk) Hv) as (d0 & d1 & Hf & A1 & A2 & A3 & A4 & A5 & B1 & B2 & B3 & B4 & B5).
  rewrite Hf. cbn [bind fst snd]. cbn [coll_new c_sid c_len c_depth c_vk c_reports app] in A1, A2, A3, A4, A5, B1, B2, B3, B4, B5.
  pose proof voters_good as Hgood.
  assert (Hex : existsb e_ok L = true) by (destruct vs; [contradiction|reflexivity]).
  assert (HnL : (Z.of_nat (length L) < 2 ^ 64)%Z) by (rewrite map_length; exact Hn).
  destruct (good_defined E Hok len (8 * chars) L Hgood []) as [D0 D1]; [cbn; lia|].
  destruct (tree_init_ret E d0) as (f0 & I0 & F0). { rewrite A5. intros h x Hin. destruct (D0 h x Hin) as (st & w & Hk & _). exact Hk. }
  destruct (tree_init_ret E d1) as (f1 & I1 & F1). { rewrite B5. intros h x Hin. destruct (D1 h x Hin) as (st & w & Hk & _). exact Hk. }
  rewrite I0. cbn [bind]. rewrite I1. cbn [bind].
  assert (Hinv : cinv E len (8 * chars) L (frontier_at thr L 0) (set_frontier d0 f0, set_frontier d1 f1)).
  { split; unfold side; cbn [srv s_poison s_coll fst snd set_frontier c_sid c_len c_depth c_reports c_frontier frontier_at].
    - rewrite A1, A2, A3, A5. repeat (split; [reflexivity|]). rewrite A2, A5 in F0. exact F0.
    - rewrite B1, B2, B3, B5. repeat (split; [reflexivity|]). rewrite B2, B5 in F1. exact F1. }
  destruct (test_levels_ok E Hok len (8 * chars) L Hgood HnL Hex thr (8 * chars - 1) 0 _ Hinv) as (cs & Hcs & Hci).
  - lia.
  - intros l Hl. destruct l; [discriminate|]. apply frontier_nonempty. destruct (Hfr (S l)) as (p & Hp & He); [lia|lia|].
    exists p. split; [exact Hp|]. rewrite heavy_enough. exact He.
  - rewrite Hcs. cbn [bind]. rewrite (test_last_ok E Hok len (8 * chars) L Hgood HnL thr Hthr n _ cs Hci).
    2:{ intros p Hp. apply frontier_length in Hp. lia. }
    cbn [Nat.add]. rewrite frontier_next. replace (S (8 * chars - 1)) with (8 * chars) by lia.
    f_equal. destruct (8 * chars) as [|b] eqn:Eb; [lia|]. cbn [frontier_at].
    rewrite (filter_ext _ (enough thr vs) (fun p => heavy_enough thr p)). apply map_ext. intros p.
    unfold exact_result, voters_result. rewrite count_voters. do 2 f_equal. apply map_ext. intros j. apply weight_voters.
Qed.
End Run.

(** *** the concrete strings *)
Fixpoint trie (thr : Z) (vs : list voter) (k : nat) : list (list bool) :=
  match k with O => [[]] | S k' => filter (enough thr vs) (children (trie thr vs k')) end.
Lemma trie_all (E : env) thr vs k : 1 <= k -> filter (enough thr vs) (all_paths k) = trie thr vs k.
Proof.
  intros Hk.
  assert (H : forall n, frontier_at thr (map (ballot_entry E) vs) n = trie thr vs n).
  { induction n as [|n IH]; [reflexivity|]. rewrite <- frontier_next, IH. cbn [trie]. apply filter_ext. intros p. apply heavy_enough. }
  rewrite <- H. destruct k; [lia|]. cbn [frontier_at]. apply filter_ext. intros p. symmetry. apply heavy_enough.
Qed.

Lemma enough_all thr vs b n : forallb (fun l => enough thr vs (firstn l b)) (seq 1 (n - 2)) = true -> n <= length b ->
  forall l, 1 <= l -> l + 1 < n -> exists p, length p = l /\ enough thr vs p = true.
Proof.
  intros H Hb l H1 H2. exists (firstn l b). split; [apply firstn_length_le; lia|]. rewrite forallb_forall in H. apply H. apply in_seq. lia.
Qed.

Lemma groups_lemma E vk seeds : env_ok E -> length seeds = 10 -> Forall (fun ss => length (fst ss) = 16 /\ length (snd ss) = 16) seeds ->
  exists rs, test_collect E 4 2 vk 40 10 (group_voters seeds) = Ret rs /\
    map shown rs = [(bits_of s_abdef, [0; 0; 4; 0; 4]%Z); (bits_of s_gZqqq, [0; 0; 3; 0; 3]%Z)] /\ test_groups E vk seeds = Ret tt.
Proof.
  intros Hok Hl HF.
  assert (Hstr : exists a b c d e f g h i j, seeds = [a; b; c; d; e; f; g; h; i; j]).
  { do 10 (destruct seeds as [|? seeds]; [discriminate Hl|]). destruct seeds; [|discriminate Hl]. do 10 eexists. reflexivity. }
  assert (Hgv : Forall (good_voter 4 5) (group_voters seeds)).
  { destruct Hstr as (a & b & c & d & e & f & g & h & i & j & ->).
    repeat match goal with H : Forall _ (_ :: _) |- _ => inversion H; clear H; subst end.
    repeat match goal with H : _ /\ _ |- _ => destruct H end.
    unfold group_voters, group_strings. cbn [combine map].
    repeat (apply Forall_cons; [unfold good_voter; cbn [v_seed0 v_seed1 v_str v_beta fst snd]; auto|]). apply Forall_nil. }
  assert (Hrun : test_collect E 4 2 vk 40 10 (group_voters seeds) = Ret (map (voters_result (group_voters seeds) 4) (trie 2 (group_voters seeds) 40))).
  { rewrite <- (trie_all E) by lia. apply (test_collect_lemma E Hok 4 5 (group_voters seeds) vk Hgv); [reflexivity|lia|lia| | |].
    - destruct Hstr as (a & b & c & d & e & f & g & h & i & j & ->). discriminate.
    - destruct Hstr as (a & b & c & d & e & f & g & h & i & j & ->). reflexivity.
    - apply (enough_all 2 (group_voters seeds) (bits_of s_abdef) 40).
      + destruct Hstr as (a & b & c & d & e & f & g & h & i & j & ->). vm_compute. reflexivity.
      + rewrite bits_of_length. cbn. lia. }
  assert (Htr : trie 2 (group_voters seeds) 40 = [bits_of s_abdef; bits_of s_gZqqq]).
  { destruct Hstr as (a & b & c & d & e & f & g & h & i & j & ->). vm_compute. reflexivity. }
  rewrite Htr in Hrun. cbn [map] in Hrun.
  assert (HA : map fval (res_value (voters_result (group_voters seeds) 4 (bits_of s_abdef))) = [0; 0; 4; 0; 4]%Z).
  { destruct Hstr as (a & b & c & d & e & f & g & h & i & j & ->). vm_compute. reflexivity. }
  assert (HB : map fval (res_value (voters_result (group_voters seeds) 4 (bits_of s_gZqqq))) = [0; 0; 3; 0; 3]%Z).
  { destruct Hstr as (a & b & c & d & e & f & g & h & i & j & ->). vm_compute. reflexivity. }
  eexists. split; [exact Hrun|]. split.
  - cbn [map]. unfold shown. rewrite HA, HB. reflexivity.
  - unfold test_groups. rewrite string_bits. cbn [bind]. rewrite bits_of_length. change (8 * length s_abdef) with 40. rewrite Hrun. cbn [bind].
    unfold check_results. cbn [mapM].
    rewrite HA, HB. change (res_path (voters_result (group_voters seeds) 4 (bits_of s_abdef))) with (bits_of s_abdef).
    change (res_path (voters_result (group_voters seeds) 4 (bits_of s_gZqqq))) with (bits_of s_gZqqq). vm_compute. reflexivity.
Qed.

Lemma full_lemma E vk seeds : env_ok E -> (forall i, i < 4 -> length (fst (seeds i)) = 16 /\ length (snd (seeds i)) = 16) ->
  exists rs, test_full E vk seeds = Ret rs /\
    map shown rs = [(bits_of s_digits, [0; 3; 0; 0; 3]%Z); (bits_of (122%N :: s_tail), [0; 3; 0; 0; 3]%Z); (bits_of (54%N :: s_tail), [0; 2; 0; 0; 2]%Z); (bits_of (57%N :: s_tail), [0; 2; 0; 0; 2]%Z)].
Proof.
  intros Hok HF.
  assert (Hgv : Forall (good_voter 4 32) (full_voters seeds)).
  { apply Forall_forall. intros v Hv. apply in_map_iff in Hv. destruct Hv as (i & <- & Hi).
    assert (Hm : i mod 4 < 4) by (apply Nat.mod_upper_bound; lia). destruct (HF _ Hm) as [H0 H1].
    unfold good_voter. cbn [v_seed0 v_seed1 v_str v_beta]. repeat (split; [assumption|]). split; [|reflexivity].
    destruct (i mod 4) as [|[|[|[|]]]]; [reflexivity..|lia]. }
  assert (Hrun : test_collect E 4 2 vk 256 4 (full_voters seeds) = Ret (map (voters_result (full_voters seeds) 4) (trie 2 (full_voters seeds) 256))).
  { rewrite <- (trie_all E) by lia. apply (test_collect_lemma E Hok 4 32 (full_voters seeds) vk Hgv); [reflexivity|lia|lia|discriminate|reflexivity|].
    apply (enough_all 2 (full_voters seeds) (bits_of s_digits) 256).
    + vm_compute. reflexivity.
    + rewrite bits_of_length. cbn. lia. }
  assert (Htr : trie 2 (full_voters seeds) 256 = [bits_of s_digits; bits_of (122%N :: s_tail); bits_of (54%N :: s_tail); bits_of (57%N :: s_tail)]) by (vm_compute; reflexivity).
  rewrite Htr in Hrun. exists (map (voters_result (full_voters seeds) 4) [bits_of s_digits; bits_of (122%N :: s_tail); bits_of (54%N :: s_tail); bits_of (57%N :: s_tail)]). split.
  - unfold test_full. rewrite string_bits. cbn [bind]. rewrite bits_of_length. change (8 * length s_digits) with 256. rewrite Hrun. cbn [bind].
    assert (Hs : mapM (fun r => bits_to_string (res_path r)) (map (voters_result (full_voters seeds) 4) [bits_of s_digits; bits_of (122%N :: s_tail); bits_of (54%N :: s_tail); bits_of (57%N :: s_tail)]) = Ret [s_digits; 122%N :: s_tail; 54%N :: s_tail; 57%N :: s_tail]) by (vm_compute; reflexivity).
    rewrite Hs. reflexivity.
  - vm_compute. reflexivity.
Qed.

Lemma bits_lemma : test_bits = Ret tt.
Proof. vm_compute. reflexivity. Qed.

Lemma zip_add_shares a b : zip_add a b = add_shares a b.
Proof. revert b. induction a as [|x a IH]; intros [|y b]; cbn; try reflexivity. rewrite IH. reflexivity. Qed.
Lemma flp_run_lemma E vk len m r : m < len -> flp_works E vk len m r -> run_flp_with_input E vk len m r = Ret true.
Proof.
  intros Hm [Hp Hc]. unfold run_flp_with_input, encode_measurement. rewrite (proj2 (Nat.ltb_lt _ _) Hm). cbn [unwrap bind].
  fold (test_joint E len r). destruct (flp_prove E len (one_hot len m) (f_prove_rand r) (test_joint E len r)) as [proof|] eqn:Ep; [|congruence].
  cbn [unwrap bind]. destruct (Hc proof (map (f_input r) (seq 0 (length (one_hot len m)))) (zip_sub (one_hot len m) (map (f_input r) (seq 0 (length (one_hot len m)))))
    (map (f_proof r) (seq 0 (length proof))) (zip_sub proof (map (f_proof r) (seq 0 (length proof))))) as (v0 & v1 & H0 & H1 & Hd).
  - exact Ep.
  - apply zip_sub_shares. rewrite map_length, seq_length. reflexivity.
  - apply zip_sub_shares. rewrite map_length, seq_length. reflexivity.
  - rewrite H0. cbn [unwrap bind]. rewrite H1. cbn [unwrap bind]. rewrite zip_add_shares, Hd. reflexivity.
Qed.
Lemma histograms_lemma E vk len rs : hist_ok len = true -> Forall (fun mr => fst mr < len /\ flp_works E vk len (fst mr) (snd mr)) rs -> test_histograms E vk len rs = Ret tt.
Proof.
  intros Hh HF. unfold test_histograms. rewrite Hh. cbn [negb]. rewrite (mapM_ret _ (fun _ => tt)); [reflexivity|].
  intros mr Hin. rewrite Forall_forall in HF. destruct (HF mr Hin) as [Hm Hw]. rewrite (flp_run_lemma _ _ _ _ _ Hm Hw). reflexivity.
Qed.
