(** Proofs for C24: where the search for inconsistent reports goes wrong, the truncated hash collides. *)
From Verif Require Import Base BaseFacts Field Util UtilFacts Env Prg Vidpf SpecVidpf SpecTree VidpfTreeFacts VidpfTreeFacts3 Merkle Collect Server Driver SpecCollect SpecServer SpecDriver SpecCheck SpecLevel SpecWhh SpecSearch SpecLast SpecRun
  CollectFacts CollectInv ServerFacts DriverFacts DriverPropFacts RefuteFacts MerkleFacts LevelFacts PairFacts WhhFacts WhhFacts2 FlpFacts WhhFacts3 SearchFacts SearchRun SearchMain SearchProp LastFacts RunFacts SpecRoot RootFacts RefEnv ToyEnv ExRun RefuteExamples WhhExamples SearchExamples.
From Coq Require Import Lia.

Lemma bounded_choice (A B : nat -> Prop) n : (forall i, i < n -> A i \/ B i) -> (forall i, i < n -> A i) \/ (exists i, i < n /\ B i).
Proof.
  induction n as [|n IH]; intros H; [left; intros i Hi; lia|].
  destruct IH as [Ha|(i & Hi & Hb)]; [intros i Hi; apply H; lia| |right; exists i; split; [lia|exact Hb]].
  destruct (H n ltac:(lia)) as [Hn|Hn]; [|right; exists n; split; [lia|exact Hn]].
  left. intros i Hi. destruct (Nat.eq_dec i n) as [->|Hne]; [exact Hn|apply Ha; lia].
Qed.
Lemma in_place_length a : forall b, length (xor_in_place a b) = length a.
Proof. induction a as [|x a IH]; intros [|y b]; cbn; auto. Qed.

Section Collision.
Variable E : env.
Hypothesis Hok : env_ok E.

Lemma proofs_xor_length len k : forall ps acc, length (fold_left (fun acc p => xor_in_place acc (proof_at E k len p)) ps acc) = length acc.
Proof. induction ps as [|p ps IH]; intros acc; cbn [fold_left]; [reflexivity|]. rewrite IH. apply in_place_length. Qed.
Lemma vstring_length first len level paths x : length (vstring E first len level paths x) = HASH_SIZE.
Proof.
  unfold vstring, verification_string, proofs_xor. rewrite xor_vec_length, proofs_xor_length, repeat_length, firstn_length.
  destruct Hok as (_ & Hb & _). rewrite Hb. reflexivity.
Qed.
Lemma vstrings_sized first len level paths l : sized (map (vstring E first len level paths) l).
Proof. apply Forall_forall. intros h Hh. apply in_map_iff in Hh. destruct Hh as (x & <- & _). apply vstring_length. Qed.

Lemma no_collision_or h0 h1 : length h0 = length h1 -> sized h0 -> sized h1 ->
  no_collision E h0 h1 \/ exists k j, k <= Nat.log2_up (length h0) /\ j * 2 ^ k < length h0 /\ tree_collision E (block k j h0) (block k j h1).
Proof.
  intros Hl S0 S1.
  destruct (bounded_choice
    (fun k => forall j, j < length h0 -> j * 2 ^ k < length h0 -> merkle_root E (block k j h0) = merkle_root E (block k j h1) -> block k j h0 = block k j h1)
    (fun k => exists j, j < length h0 /\ j * 2 ^ k < length h0 /\ tree_collision E (block k j h0) (block k j h1))
    (S (Nat.log2_up (length h0)))) as [H|(k & Hk & j & _ & Hj & Hc)].
  - intros k _. apply bounded_choice. intros j _. destruct (le_lt_dec (length h0) (j * 2 ^ k)) as [Hb|Hb]; [left; intros Hx; lia|].
    assert (Hd : {merkle_root E (block k j h0) = merkle_root E (block k j h1)} + {merkle_root E (block k j h0) <> merkle_root E (block k j h1)})
      by (decide equality; apply list_eq_dec, N.eq_dec).
    destruct Hd as [He|Hne]; [|left; intros _ He; contradiction].
    destruct (blocks_binding E Hok h0 h1 k j Hl S0 S1 He) as [Hq|Hc]; [left; intros _ _; exact Hq|right; split; assumption].
  - left. intros k j Hk Hj. apply H; try lia. pose proof (Nat.pow_nonzero 2 k ltac:(lia)). nia.
  - right. exists k, j. split; [lia|]. split; assumption.
Qed.
Lemma hashes_fine_or len level paths R : clog2f E (length (remaining R)) = Nat.log2_up (length (remaining R)) ->
  hashes_fine E len level paths R \/ block_collision E len level paths R.
Proof.
  intros Hc. destruct (no_collision_or (map (vstring E true len level paths) (remaining R)) (map (vstring E false len level paths) (remaining R))) as [H|(k & j & _ & _ & H)].
  - rewrite !map_length. reflexivity.
  - apply vstrings_sized.
  - apply vstrings_sized.
  - left. split; assumption.
  - right. exists k, j. exact H.
Qed.
Lemma exact_or len bits level paths R s0 s1 fuel cfg :
  level_start E len bits level paths R s0 s1 -> clog2f E (length R) = Nat.log2_up (length R) -> cfg_hist cfg = len ->
  Nat.log2_up (length R) + 2 <= fuel -> all_accepted R -> existsb (consistent E len level paths) R = true ->
  (exists t0 t1, run_level fuel E cfg s0 s1 (length R) = Ret (t0, t1) /\
    after_level E len bits (threshold cfg) (map (fun x => (consistent E len level paths x, snd x)) R) paths t0 t1) \/ block_collision E len level paths R.
Proof.
  intros Hs Hc Hh Hf Ha He. assert (Hr : remaining R = R).
  { unfold remaining. clear - Ha. induction Ha as [|x R Hx _ IH]; [reflexivity|]. cbn [filter]. rewrite Hx, IH. reflexivity. }
  destruct (hashes_fine_or len level paths R) as [H|H]; [rewrite Hr; exact Hc| |right; exact H].
  left. exact (p_exact E len bits level paths R s0 s1 fuel cfg Hok Hs H Hh Hf Ha He).
Qed.

(** whole runs *)
Lemma clear_at_length is R : length (clear_at is R) = length R.
Proof. unfold clear_at. rewrite map_length, combine_length, seq_length. lia. Qed.
Lemma level_effect_length len thr level paths R paths' R' : level_effect E len thr level paths R = Ret (paths', R') -> length R' = length R.
Proof.
  unfold level_effect. destruct (_ || _); [discriminate|]. destruct (bad_ranks E len level paths R) as [|b bad]; [intros [= _ <-]; reflexivity|].
  destruct (_ <? _); [discriminate|]. cbn zeta. destruct (_ =? 0); [discriminate|]. intros [= _ <-]. apply clear_at_length.
Qed.
Lemma remaining_length R : length (remaining R) <= length R.
Proof. unfold remaining. induction R as [|x R IH]; cbn; [lia|]. destruct (fst x); cbn; lia. Qed.
Lemma fine_levels_or len thr N : (forall n, n <= N -> clog2f E n = Nat.log2_up n) -> forall n level paths R, length R = N ->
  fine_levels E len thr n level paths R \/
  exists m paths' R', m < n /\ levels_effect E len thr m level paths R = Ret (paths', R') /\ block_collision E len (level + m) paths' R'.
Proof.
  intros Hc. induction n as [|n IH]; intros level paths R HN; [left; exact I|]. cbn [fine_levels].
  assert (Hfl : hashes_fine E len level paths R \/ block_collision E len level paths R).
  { apply hashes_fine_or, Hc. rewrite <- HN. apply remaining_length. }
  destruct Hfl as [Hfl|Hcol].
  2:{ right. exists 0, paths, R. rewrite Nat.add_0_r. split; [lia|]. split; [reflexivity|exact Hcol]. }
  destruct (level_effect E len thr level paths R) as [[p' R1]|k] eqn:He; [|left; split; [intros _; exact Hfl|exact I]].
  destruct (IH (S level) p' R1) as [Hi|(m & p2 & R2 & Hm & Hl & Hb)].
  - rewrite <- HN. exact (level_effect_length _ _ _ _ _ _ _ He).
  - left. split; [intros _; exact Hfl|exact Hi].
  - right. exists (S m), p2, R2. split; [lia|]. split.
    + cbn [levels_effect]. rewrite He. exact Hl.
    + rewrite <- Nat.add_succ_comm. exact Hb.
Qed.
Lemma run_exact_or fuel cfg len bits vk R s0 s1 :
  well_formed_pairs bits R -> flp_flags E len bits vk R -> (forall n, n <= length R -> clog2f E n = Nat.log2_up n) ->
  uploaded true len bits vk (map (share_of true) R) s0 -> uploaded false len bits vk (map (share_of false) R) s1 ->
  cfg_hist cfg = len -> cfg_bits cfg = Some bits -> 1 <= bits -> 0 < cfg_query_batch cfg -> length R + 2 <= fuel ->
  (exists t0 t1, run_whh fuel E cfg s0 s1 (length R) =
    let! rs := run_effect E len (threshold cfg) (cfg_query_batch cfg) bits R in Ret (t0, t1, rs)) \/ run_collision E len (threshold cfg) bits R.
Proof.
  intros Hw Hv Hc U0 U1 Hh Hb H1 Hq Hf.
  destruct (fine_levels_or len (threshold cfg) (length R) Hc (bits - 1) 0 [[]] R eq_refl) as [H|H]; [left|right; exact H].
  exact (run_exact fuel E cfg len bits vk R s0 s1 Hok Hw Hv H U0 U1 Hh Hb H1 Hq Hf).
Qed.
End Collision.

(** *** equal roots over different strings: nothing is noticed *)
Section Unnoticed.
Variables (E : env) (len bits level : nat) (paths : list (list bool)) (R : list pair) (s0 s1 : server) (fuel : nat) (cfg : config).
Hypothesis Hok : env_ok E.
Hypothesis H0 : at_frontier E true len bits paths (held true R) s0.
Hypothesis H1 : at_frontier E false len bits paths (held false R) s1.
Hypothesis Hwf : well_formed_pairs bits R.
Hypothesis Hp : forall p, In p paths -> length p = level.
Hypothesis Hl : level < bits.
Hypothesis Hcfg : cfg_hist cfg = len.
Hypothesis Hfuel : 1 <= fuel.

Lemma level_unnoticed : paths <> [] -> remaining R <> [] -> same_roots E len level paths R ->
  exists t0 t1, run_level fuel E cfg s0 s1 (length R) = Ret (t0, t1) /\ after_level E len bits (threshold cfg) R paths t0 t1.
Proof.
  intros Hne Hm Hroots. destruct fuel as [|f] eqn:Hfu; [lia|]. pose proof (at_side _ _ _ _ _ _ _ H0) as S0. pose proof (at_side _ _ _ _ _ _ _ H1) as S1.
  assert (Hd : forall first p, length p <= bits -> defined_at E len (held first R) p) by (intros; apply (pairs_defined E len bits); assumption).
  assert (Hsne : strings_of E true len level paths (held true R) <> []) by (rewrite strings_held; destruct (remaining R); [contradiction|discriminate]).
  assert (Hsne' : strings_of E false len level paths (held false R) <> []) by (rewrite strings_held; destruct (remaining R); [contradiction|discriminate]).
  assert (Hm01 : exists root, merkle_part E (strings_of E true len level paths (held true R)) 1 [] false = Ret ([root], [0]) /\
      merkle_part E (strings_of E false len level paths (held false R)) 1 [] false = Ret ([root], [0])).
  { rewrite !merkle_one by assumption. rewrite !strings_held in *. unfold same_roots in Hroots. rewrite !map_length, <- Hroots.
    destruct (merkle_root_some E (firstn (2 ^ clog2f E (length (remaining R))) (map (vstring E true len level paths) (remaining R)))) as [root Hr].
    - pose proof (pow2_ge1 (clog2f E (length (remaining R)))). destruct (2 ^ clog2f E (length (remaining R))); [lia|]. destruct (remaining R); [contradiction|discriminate].
    - rewrite Hr. cbn [unwrap bind]. eauto. }
  destruct Hm01 as (root & Hm0 & Hm1).
  pose proof (handle_crawl E len bits [] true _ paths level s0 _ 1 S0 Hne Hp (Hd true) Hl Hm0) as HC0. pose proof (handle_crawl E len bits [] false _ paths level s1 _ 1 S1 Hne Hp (Hd false) Hl Hm1) as HC1.
  cbn [fst snd] in HC0, HC1.
  destruct (side_crawled E len bits _ _ _ _ S0) as [HS0 HF0]. destruct (side_crawled E len bits _ _ _ _ S1) as [HS1 HF1].
  destruct (finish E len bits level paths R cfg Hok Hwf Hp Hl R (crawled_server E s0 paths, crawled_server E s1 paths) 0%Z eq_refl) as (t0 & t1 & Ht & Ha).
  { unfold ended. cbn [fst snd]. auto. }
  exists t0, t1. split; [|exact Ha]. unfold run_level. cbn [level_loop]. unfold ask_servers at 1. cbn [fst snd].
  rewrite (proj2 (call2_ret _ _ _ _ _ _ _ _ _) (conj HC0 HC1)). cbn [bind].
  rewrite (proj2 (assert_true _)) by (rewrite !map_length; apply Nat.eqb_refl). cbn [bind].
  rewrite Hcfg. pose proof (keep_seen E len (threshold cfg) paths R) as Hk. unfold values_of in Hk. rewrite Hk.
  cbn [bind length Nat.eqb mismatches seq foldM index nth_error]. rewrite bytes_eqb_refl. cbn [bind fst snd]. exact Ht.
Qed.
End Unnoticed.
Lemma unnoticed E len bits level paths R s0 s1 fuel cfg : env_ok E -> level_start E len bits level paths R s0 s1 -> cfg_hist cfg = len -> 1 <= fuel ->
  remaining R <> [] -> same_roots E len level paths R ->
  exists t0 t1, run_level fuel E cfg s0 s1 (length R) = Ret (t0, t1) /\ after_level E len bits (threshold cfg) R paths t0 t1.
Proof. intros Hok (A & B & C & D & F & G) Hc Hf Hr Hs. apply (level_unnoticed E len bits level paths R s0 s1 fuel cfg); assumption. Qed.

(** a case: five reports, the last inconsistent, and a tree of four leaves *)
Definition with_log (E : env) (f : nat -> nat) : env :=
  {| dbg := dbg E; x86 := x86 E; aes0 := aes0 E; blake3 := blake3 E; xof_bytes := xof_bytes E; xof_field := xof_field E; clog2f := f;
     flp_joint_rand_len := flp_joint_rand_len E; flp_query_rand_len := flp_query_rand_len E; flp_prove_rand_len := flp_prove_rand_len E;
     flp_prove := flp_prove E; flp_query := flp_query E; flp_decide := flp_decide E;
     p3_prep_init := p3_prep_init E; p3_decode_share := p3_decode_share E; p3_msg := p3_msg E; p3_next := p3_next E |}.
Lemma with_log_ok E f : env_ok E -> env_ok (with_log E f).
Proof. exact (fun H => H). Qed.
Definition y_server (E : env) (id : Z) (us : list (nat * kind)) (qs : list request) : server :=
  fst (handle_all E (server_start id (Some 3) 2) ([QReset ex_vk 2; QAddReportShares (map (x_share id) us); QTreeInit] ++ qs)).
Lemma startb_any E id0 id1 bits level paths us qs0 qs1 s0 s1 : (id0 =? 0)%Z = true -> (id1 =? 0)%Z = false -> s0 = y_server E id0 us qs0 -> s1 = y_server E id1 us qs1 ->
  startb bits level paths s0 s1 = true -> level_start E 2 bits level paths (x_pairs s0 s1) s0 s1.
Proof.
  intros H0 H1 E0 E1 H. unfold startb in H. rewrite !andb_true_iff in H. destruct H as [[[[[? ?] ?] ?] ?] ?].
  match goal with X : bools_eqb _ _ = true |- _ => apply bools_eqb_ok in X; destruct (pairs_held s0 s1 X) as [P Q] end.
  assert (Hat : forall id s, s = y_server E id us (if (id =? 0)%Z then qs0 else qs1) -> sideb bits paths s = true ->
    at_frontier E (id =? 0)%Z 2 bits paths (c_reports (s_coll s)) s /\ forall h r, In (h, r) (c_reports (s_coll s)) -> well_formed bits r).
  { intros id s Hs X. unfold sideb in X. repeat (apply andb_prop in X; destruct X as [X ?]). split.
    - assert (Hp : ex_paths_of s = paths) by (apply paths_eqb_ok; assumption). rewrite <- Hp. unfold ex_paths_of.
      assert (Hc : c_len (s_coll s) = 2) by (apply Nat.eqb_eq; assumption). rewrite <- Hc. unfold y_server in Hs. apply (reach_at_frontier _ _ _ _ _ _ _ Hs).
      + destruct (s_poison s); [discriminate|reflexivity].
      + destruct (c_depth (s_coll s)) as [d|]; [|discriminate]. f_equal. apply Nat.eqb_eq. assumption.
      + intros node Hn. apply Nat.eqb_eq. match goal with X : forallb (fun node => _) (c_frontier _) = true |- _ => rewrite forallb_forall in X; apply X; exact Hn end.
    - intros h r Hr. apply wfb_ok. match goal with X : forallb _ (c_reports _) = true |- _ => rewrite forallb_forall in X; apply (X (h, r) Hr) end. }
  destruct (Hat id0 s0) as [A0 W0]; [rewrite H0; exact E0|assumption|]. destruct (Hat id1 s1) as [A1 W1]; [rewrite H1; exact E1|assumption|]. rewrite H0 in A0. rewrite H1 in A1.
  split; [rewrite P; exact A0|]. split; [rewrite Q; exact A1|]. split; [|split; [|split; [|apply Nat.ltb_lt; assumption]]].
  - apply Forall_forall. intros [h [x y]] Hin. split.
    + apply (W0 h). rewrite <- P. unfold held. apply in_map_iff. exists (h, (x, y)). split; [reflexivity|exact Hin].
    + apply (W1 h). rewrite <- Q. unfold held. apply in_map_iff. exists (h, (x, y)). split; [reflexivity|exact Hin].
  - intros ->. discriminate.
  - intros p Hp. apply Nat.eqb_eq. match goal with X : forallb _ paths = true |- _ => rewrite forallb_forall in X; apply X; exact Hp end.
Qed.
Definition k_last : case := {| k_us := [(0, Good); (1, Good); (2, Good); (0, Good); (1, BadWord)]; k_keep := [true; true; true; true; true] |}.
Definition sx : env := with_log tx (fun n => Nat.log2_up n - 1).
Definition s_server (id : Z) : server := y_server sx id (k_us k_last) (x_level1 (k_keep k_last)).
Definition s_pairs : list pair := x_pairs (s_server 0) (s_server 1).
Definition rootsb (R : list pair) : bool :=
  list_eqb bytes_eqb (firstn (2 ^ clog2f sx (length (remaining R))) (map (vstring sx true 2 1 k_paths) (remaining R)))
                     (firstn (2 ^ clog2f sx (length (remaining R))) (map (vstring sx false 2 1 k_paths) (remaining R))).
Lemma rootsb_ok R : rootsb R = true -> same_roots sx 2 1 k_paths R.
Proof. intros H. apply (list_eqb_ok bytes_eqb bytes_eqb_true) in H. unfold same_roots. rewrite H. reflexivity. Qed.
Lemma s_last_ok : env_ok sx /\ level_start sx 2 3 1 k_paths s_pairs (s_server 0) (s_server 1) /\
  map fst s_pairs = [true; true; true; true; true] /\ map (consistent sx 2 1 k_paths) s_pairs = [true; true; true; true; false] /\
  remaining s_pairs <> [] /\ same_roots sx 2 1 k_paths s_pairs.
Proof.
  split; [apply with_log_ok, toy_env_ok|]. split.
  { apply (startb_any sx 0%Z 1%Z 3 1 k_paths (k_us k_last) (x_level1 (k_keep k_last)) (x_level1 (k_keep k_last))); [reflexivity|reflexivity|reflexivity|reflexivity|].
    vm_cast_no_check (eq_refl true). }
  split; [apply bools_eqb_ok; vm_cast_no_check (eq_refl true)|].
  split; [apply bools_eqb_ok; vm_cast_no_check (eq_refl true)|].
  split; [|apply rootsb_ok; vm_cast_no_check (eq_refl true)].
  assert (H : negb (length (remaining s_pairs) =? 0) = true) by (vm_cast_no_check (eq_refl true)).
  intros Hx. rewrite Hx in H. discriminate H.
Qed.
