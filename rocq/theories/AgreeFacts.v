(** Proofs for C69. *)
From Verif Require Import Base BaseFacts Field Util UtilFacts Env Prg Vidpf Merkle Collect Server Driver Modes SpecVidpf SpecTree SpecCollect SpecLevel SpecWhh SpecMetrics SpecModes
  WhhFacts WhhFacts2 WhhFacts3 WhhMain ModesFacts ModesMain PmMain SpecAgree.
From Coq Require Import Lia Permutation.
Local Open Scope Z_scope.

Lemma zsum_app l l' : zsum (l ++ l') = zsum l + zsum l'.
Proof. induction l as [|x l IH]; cbn [zsum app]; lia. Qed.
Lemma zsum_map_add {A} (f g : A -> Z) l : zsum (map (fun x => f x + g x) l) = zsum (map f l) + zsum (map g l).
Proof. induction l as [|x l IH]; cbn [zsum map]; lia. Qed.
Lemma zsum_zero {A} (l : list A) : zsum (map (fun _ => 0) l) = 0.
Proof. induction l as [|x l IH]; cbn [zsum map]; lia. Qed.
Lemma zsum_ext {A} (f g : A -> Z) l : (forall x, In x l -> f x = g x) -> zsum (map f l) = zsum (map g l).
Proof. intros H. rewrite (map_ext_in _ _ _ H). reflexivity. Qed.

(** each string of n bits has exactly one of the paths as prefix *)
Lemma one_path n : forall a, length a = n -> zsum (map (fun p => if is_prefix p a then 1 else 0) (all_paths n)) = 1.
Proof.
  induction n as [|n IH]; intros a Ha; [destruct a; [reflexivity|discriminate]|]. destruct a as [|x a]; [discriminate|]. injection Ha as Ha.
  cbn [all_paths]. rewrite map_app, zsum_app, !map_map. cbn [is_prefix]. destruct x; cbn [Bool.eqb andb].
  - rewrite zsum_zero, (IH a Ha). reflexivity.
  - rewrite (IH a Ha), zsum_zero. reflexivity.
Qed.
Lemma tally_bucket_cons b bs p j : tally_bucket (b :: bs) p j = (if is_prefix p (fst b) && (snd b =? j)%nat then 1 else 0) + tally_bucket bs p j.
Proof. unfold tally_bucket. cbn [filter]. destruct (is_prefix p (fst b) && (snd b =? j)%nat); cbn [length]; lia. Qed.
Lemma tally_cons b bs p : tally (b :: bs) p = (if is_prefix p (fst b) then 1 else 0) + tally bs p.
Proof. unfold tally. cbn [filter]. destruct (is_prefix p (fst b)); cbn [length]; lia. Qed.
Lemma tally_bucket_nil p j : tally_bucket [] p j = 0. Proof. reflexivity. Qed.
Lemma buckets_total n bs j : Forall (fun b => length (fst b) = n) bs ->
  zsum (map (fun p => tally_bucket bs p j) (all_paths n)) = Z.of_nat (length (filter (fun b => (snd b =? j)%nat) bs)).
Proof.
  induction 1 as [|b bs Hb _ IH]; [exact (zsum_zero (all_paths n))|]. rewrite (zsum_ext _ (fun p => (if is_prefix p (fst b) && (snd b =? j)%nat then 1 else 0) + tally_bucket bs p j)) by (intros; apply tally_bucket_cons).
  rewrite zsum_map_add, IH. cbn [filter]. destruct (snd b =? j)%nat.
  - rewrite (zsum_ext _ (fun p => if is_prefix p (fst b) then 1 else 0)) by (intros; rewrite andb_true_r; reflexivity). rewrite (one_path n _ Hb). cbn [length]. lia.
  - rewrite (zsum_ext _ (fun _ => 0)) by (intros; rewrite andb_false_r; reflexivity). rewrite zsum_zero. lia.
Qed.
Lemma one_bucket m : forall len a, (a <= m < a + len)%nat -> zsum (map (fun j => if (m =? j)%nat then 1 else 0) (seq a len)) = 1.
Proof.
  induction len as [|len IH]; intros a H; [lia|]. cbn [seq map zsum]. destruct (Nat.eqb_spec m a) as [->|Hne].
  - rewrite (zsum_ext _ (fun _ => 0)); [rewrite zsum_zero; reflexivity|]. intros j Hj. apply in_seq in Hj. destruct (Nat.eqb_spec a j); [lia|reflexivity].
  - rewrite IH by lia. reflexivity.
Qed.
Lemma strings_total bs p len : Forall (fun b => (snd b < len)%nat) bs -> zsum (map (tally_bucket bs p) (seq 0 len)) = tally bs p.
Proof.
  induction 1 as [|b bs Hb _ IH]; [exact (zsum_zero (seq 0 len))|]. rewrite (zsum_ext _ (fun j => (if is_prefix p (fst b) && (snd b =? j)%nat then 1 else 0) + tally_bucket bs p j)) by (intros; apply tally_bucket_cons).
  rewrite zsum_map_add, IH, tally_cons. f_equal. destruct (is_prefix p (fst b)); cbn [andb]; [apply one_bucket; lia|apply zsum_zero].
Qed.
Lemma tally_bucket_le bs p j : 0 <= tally_bucket bs p j <= tally bs p.
Proof.
  split; [unfold tally_bucket; lia|]. induction bs as [|b bs IH]; [reflexivity|]. rewrite tally_bucket_cons, tally_cons.
  destruct (is_prefix p (fst b)); cbn [andb]; [destruct (snd b =? j)%nat|]; lia.
Qed.
Lemma tally_le bs p : 0 <= tally bs p <= Z.of_nat (length bs).
Proof. split; [unfold tally; lia|]. induction bs as [|b bs IH]; [reflexivity|]. rewrite tally_cons. cbn [length]. destruct (is_prefix p (fst b)); lia. Qed.
Lemma fval_small z : 0 <= z < 2 ^ 64 -> fval (of_Z z) = z.
Proof. intros H. rewrite fval_of_Z. apply Z.mod_small. split; [lia|]. apply Z.lt_trans with (2 ^ 64); [lia|reflexivity]. Qed.

Lemma ballots_length clients chs : (length (ballots clients chs) <= length chs)%nat.
Proof.
  unfold ballots. induction chs as [|ch chs IH]; [reflexivity|]. cbn [flat_map]. rewrite app_length. cbn [length].
  destruct (counts ch); [|cbn [length]; lia]. destruct (nth_error clients (ch_idx ch)); cbn [length]; lia.
Qed.
Lemma ballots_all (Q : list bool * nat -> Prop) clients chs : (forall cl, In cl clients -> Q (cl_alpha cl, cl_bucket cl)) -> Forall Q (ballots clients chs).
Proof.
  intros H. unfold ballots. apply Forall_forall. intros b Hb. apply in_flat_map in Hb. destruct Hb as (ch & _ & Hb). destruct (counts ch); [|destruct Hb].
  destruct (nth_error clients (ch_idx ch)) as [cl|] eqn:Hc; [|destruct Hb]. destruct Hb as [<-|[]]. apply H. eapply nth_error_In, Hc.
Qed.
Lemma mapM_each {A B} (f : A -> outcome B) : forall l l', mapM f l = Ret l' -> forall x, In x l -> exists y, f x = Ret y.
Proof.
  induction l as [|a l IH]; intros l' H x Hx; [destruct Hx|]. cbn [mapM] in H. bret H as y Hy. bret H as ys Hys. destruct Hx as [<-|Hx]; [eauto|]. eapply IH; eauto.
Qed.
Lemma bucket_range E len cl r : gen_report E len cl = Ret r -> (cl_bucket cl < len)%nat.
Proof.
  intros H. unfold gen_report in H. bret H as beta Hb. unfold encode_measurement in Hb.
  destruct (Nat.ltb_spec (cl_bucket cl) len); [assumption|discriminate].
Qed.

Lemma last_batch {A} (f : nat -> A) d n b : (0 < n)%nat -> (0 < b)%nat -> last (map f (batch_ends n b)) d = f n.
Proof.
  intros Hn Hb. unfold batch_ends. set (q := ((n + b - 1) / b)%nat).
  assert (Hq : (n <= q * b)%nat). { pose proof (Nat.div_mod (n + b - 1) b ltac:(lia)) as H. fold q in H. pose proof (Nat.mod_upper_bound (n + b - 1) b ltac:(lia)). nia. }
  destruct q as [|q]; [lia|]. rewrite seq_S, map_app, map_app. cbn [map Nat.add]. rewrite last_last. f_equal. apply Nat.min_l. lia.
Qed.
Lemma in_table_ballots debug clients chs : debug = true \/ forallb counts chs = true -> in_table debug clients chs = ballots clients chs.
Proof.
  intros [->|H]; [reflexivity|]. unfold in_table, ballots. induction chs as [|ch chs IH]; [reflexivity|]. cbn [forallb] in H. apply andb_prop in H. destruct H as [H1 H2].
  cbn [flat_map]. rewrite (IH H2), H1, orb_true_r. reflexivity.
Qed.

(** *** weighted heavy hitters and attribute-based metrics *)
Lemma agree_abm E len bits vk clients reports chs samples order fuel fuel' cfg cfg' s0 s1 s0' s1' :
  env_ok E -> (1 <= bits)%nat -> mapM (gen_report E len) clients = Ret reports ->
  Forall (good_client E len bits vk) clients -> Forall (good_choice E len vk reports) chs -> fixed_verifier_len E len ->
  cfg_hist cfg = len -> cfg_bits cfg = Some bits -> (0 < cfg_query_batch cfg)%nat -> (0 < cfg_add_batch cfg)%nat -> hist_ok len = true -> (length chs <= fuel)%nat ->
  cfg_hist cfg' = len -> (0 < cfg_query_batch cfg')%nat -> (0 < cfg_add_batch cfg')%nat -> (length chs <= fuel')%nat -> Z.of_nat (length chs) < 2 ^ 64 ->
  running 0 bits s0 -> (exists id, id <> 0 /\ running id bits s1) -> running 0 bits s0' -> (exists id, id <> 0 /\ running id bits s1') ->
  existsb counts chs = true -> (bits = 1%nat \/ dbg E = false -> forallb counts chs = true) ->
  (forall s, In s samples -> (1 <= s < length clients)%nat) -> (forall l, Permutation (order l) l) ->
  (forall l, (1 <= l)%nat -> (l + 1 < bits)%nat -> exists p, length p = l /\ popular (threshold cfg) (ballots clients chs) p = true) ->
  exists t0 t1 rs t0' t1' tables, main_whh fuel E cfg clients vk chs s0 s1 = Ret (t0, t1, rs) /\
    main_abm fuel' E cfg' clients vk chs samples order s0' s1' = Ret (t0', t1', tables) /\
    forall a w, In (a, w) (last tables []) -> length w = len /\
      forall x, In {| res_path := a; res_value := x |} rs <-> threshold cfg <= zsum (map fval w) /\ x = w ++ [of_Z (zsum (map fval w))].
Proof.
  intros Hok Hb Hr Hc Hh Hfix A1 A2 A3 A4 Hhist A5 B1 B2 B3 B4 Hn R0 R1 R0' R1' Hex Hall Hs Ho Hlv. pose proof (clients_some E len vk clients reports chs Hr Hh Hex) as Hsome.
  destruct (main_whh_ok E Hok len bits vk clients reports chs Hb Hr Hc Hh fuel cfg s0 s1) as (t0 & t1 & HW); try assumption.
  { intros _. exact Hex. } { intros H1. apply Hall. left. exact H1. }
  destruct (main_abm_ok E len bits vk clients reports chs samples order fuel' cfg' s0' s1') as (u0 & u1 & attrs & HA & Hnd & Hin); try assumption.
  eexists t0, t1, _, u0, u1, _. split; [exact HW|]. split; [exact HA|].
  assert (Hlen : (0 < length chs)%nat) by (destruct chs; [discriminate|cbn [length]; lia]).
  rewrite last_batch by assumption. rewrite firstn_all, in_table_ballots.
  2:{ destruct (dbg E); [left; reflexivity|right; apply Hall; right; reflexivity]. }
  set (bs := ballots clients chs) in *.
  assert (Hrange : Forall (fun b : list bool * nat => (snd b < len)%nat) bs).
  { apply ballots_all. intros cl Hcl. destruct (mapM_each _ _ _ Hr cl Hcl) as (r & Hgr). cbn [snd]. eapply bucket_range, Hgr. }
  assert (Hsmall : forall p, 0 <= tally bs p < 2 ^ 64). { intros p. pose proof (tally_le bs p). pose proof (ballots_length clients chs). fold bs in H0. lia. }
  intros a w Haw. unfold tally_table in Haw. apply in_map_iff in Haw. destruct Haw as (a' & Haw & Ha). injection Haw as -> <-.
  split; [rewrite map_length, seq_length; reflexivity|].
  assert (Hz : zsum (map fval (map (fun j => of_Z (tally_bucket bs a j)) (seq 0 len))) = tally bs a).
  { rewrite map_map, <- (strings_total bs a len Hrange). apply zsum_ext. intros j _. apply fval_small. pose proof (tally_bucket_le bs a j). specialize (Hsmall a). lia. }
  rewrite Hz.
  assert (Hal : length a = bits). { apply Hin in Ha. destruct Ha as (i & cl & _ & Hcl & ->). rewrite Forall_forall in Hc. apply (Hc cl). eapply nth_error_In, Hcl. }
  intros x. rewrite in_map_iff. split.
  - intros (p & Hp & Hf). unfold tally_result in Hp. injection Hp as -> <-. apply filter_In in Hf. destruct Hf as [_ Hf]. unfold popular in Hf. apply Z.leb_le in Hf. split; [exact Hf|reflexivity].
  - intros [Ht ->]. exists a. split; [reflexivity|]. apply filter_In. split; [apply all_paths_length; exact Hal|]. unfold popular. apply Z.leb_le. exact Ht.
Qed.

(** *** weighted heavy hitters and plain metrics *)
Lemma skip_pieces {A} b (l : list A) : (0 < b)%nat -> forall q a, (length l <= (a + q) * b)%nat -> concat (map (fun k => firstn b (skipn (k * b) l)) (seq a q)) = skipn (a * b) l.
Proof.
  intros Hb. induction q as [|q IH]; intros a H; cbn [seq map concat].
  - rewrite skipn_all2 by lia. reflexivity.
  - rewrite IH by lia. replace (S a * b)%nat with (b + a * b)%nat by lia. rewrite <- skipn_skipn'. apply firstn_skipn.
Qed.
Lemma concat_pieces {A} b (l : list A) : (0 < b)%nat -> concat (pieces b l) = l.
Proof.
  intros Hb. unfold pieces. rewrite skip_pieces; [reflexivity|exact Hb|]. set (n := length l). set (q := ((n + b - 1) / b)%nat).
  pose proof (Nat.div_mod (n + b - 1) b ltac:(lia)) as H. fold q in H. pose proof (Nat.mod_upper_bound (n + b - 1) b ltac:(lia)). nia.
Qed.
Lemma histogram_sum len j ps : (j < len)%nat -> zsum (map (fun h => nth j (fst h) 0) (map (vote_histogram len) ps)) =
  Z.of_nat (length (filter (fun v => match v with Some m => (m =? j)%nat | None => false end) (concat ps))).
Proof.
  intros Hj. induction ps as [|p ps IH]; [reflexivity|]. cbn [map zsum concat]. rewrite IH, filter_app, app_length, Nat2Z.inj_add. f_equal.
  unfold vote_histogram. cbn [fst]. rewrite (nth_indep _ 0 (Z.of_nat (length (filter (fun v => match v with Some m => (m =? 0)%nat | None => false end) p)))) by (rewrite map_length, seq_length; exact Hj).
  rewrite (map_nth (fun j => Z.of_nat (length (filter (fun v => match v with Some m => (m =? j)%nat | None => false end) p)))), seq_nth by exact Hj. reflexivity.
Qed.
Lemma votes_ballots clients pclients chs j : Forall2 (fun cl pc => cl_bucket cl = pc_bucket pc) clients pclients -> Forall (fun ch => ch_malicious ch = false) chs ->
  length (filter (fun v => match v with Some m => (m =? j)%nat | None => false end) (pm_votes pclients chs)) = length (filter (fun b => (snd b =? j)%nat) (ballots clients chs)).
Proof.
  intros HF. induction 1 as [|ch chs Hch _ IH]; [reflexivity|]. unfold pm_votes, ballots. cbn [map flat_map]. unfold counts at 1. rewrite Hch. cbn [andb negb].
  fold (pm_votes pclients chs). change (flat_map _ chs) with (ballots clients chs). rewrite filter_app, app_length, <- IH. cbn [filter].
  assert (Hnth : match nth_error clients (ch_idx ch), nth_error pclients (ch_idx ch) with Some cl, Some pc => cl_bucket cl = pc_bucket pc | None, None => True | _, _ => False end).
  { clear -HF. revert HF. generalize (ch_idx ch). intros i HF. revert i. induction HF as [|x y l l' Hxy _ IH]; intros [|i]; try exact I; [exact Hxy|apply IH]. }
  destruct (nth_error clients (ch_idx ch)) as [cl|], (nth_error pclients (ch_idx ch)) as [pc|]; try contradiction; cbn [option_map].
  - cbn [filter snd]. rewrite Hnth. destruct (pc_bucket pc =? j)%nat; reflexivity.
  - reflexivity.
Qed.
Lemma zsum_filter {A} (f : A -> Z) g l : (forall x, In x l -> g x = false -> f x = 0) -> zsum (map f (filter g l)) = zsum (map f l).
Proof.
  intros H. induction l as [|x l IH]; [reflexivity|]. assert (IH' := IH (fun y Hy => H y (or_intror Hy))). cbn [filter map zsum].
  destruct (g x) eqn:Hg; cbn [map zsum]; [lia|]. rewrite (H x (or_introl eq_refl) Hg). lia.
Qed.
Lemma agree_pm E shard len bits vk clients pclients reports chs fuel fuel' cfg cfg' s0 s1 s0' s1' :
  env_ok E -> (1 <= bits)%nat -> mapM (gen_report E len) clients = Ret reports ->
  Forall (good_client E len bits vk) clients -> Forall (good_choice E len vk reports) chs ->
  Forall2 (fun cl pc => cl_bucket cl = pc_bucket pc) clients pclients -> chs <> [] -> Forall (fun ch => ch_malicious ch = false) chs ->
  (forall cl, In cl pclients -> shard len (pc_bucket cl) (pc_nonce cl) (pc_rand cl) <> None) -> Forall (good_pm_choice E shard len vk pclients) chs ->
  cfg_hist cfg = len -> cfg_bits cfg = Some bits -> (0 < cfg_query_batch cfg)%nat -> (0 < cfg_add_batch cfg)%nat -> hist_ok len = true -> (length chs <= fuel)%nat -> cfg_thr cfg <= 1 ->
  cfg_hist cfg' = len -> (0 < cfg_query_batch cfg')%nat -> (0 < cfg_add_batch cfg')%nat -> (length chs <= fuel')%nat -> Z.of_nat (length chs) < 2 ^ 64 ->
  running 0 bits s0 -> (exists id, id <> 0 /\ running id bits s1) -> s_poison s0' = false -> s_id s0' = 0 -> s_poison s1' = false -> s_id s1' = 1 ->
  exists t0 t1 rs t0' t1' hs, main_whh fuel E cfg clients vk chs s0 s1 = Ret (t0, t1, rs) /\
    main_pm fuel' E shard cfg' pclients vk chs s0' s1' = Ret (t0', t1', hs) /\
    forall j, (j < len)%nat -> zsum (map (fun h => nth j (fst h) 0) hs) = zsum (map (fun r => entry_of j (res_value r)) rs).
Proof.
  intros Hok Hb Hr Hc Hh HF Hne Hmal Hsh Hpc A1 A2 A3 A4 Hhist A5 Hthr B1 B2 B3 B4 Hn R0 R1 P0 P1 P2 P3.
  assert (Hall : forallb counts chs = true). { apply forallb_forall. intros ch Hin. rewrite Forall_forall in Hmal. unfold counts. rewrite (Hmal ch Hin). reflexivity. }
  assert (Hex : existsb counts chs = true). { destruct chs as [|ch chs']; [contradiction|]. cbn [forallb existsb] in *. apply andb_prop in Hall. destruct Hall as [-> _]. reflexivity. }
  pose proof (clients_some E len vk clients reports chs Hr Hh Hex) as Hsome.
  assert (Hsome' : pclients <> []) by (intros ->; inversion HF; subst; contradiction).
  assert (Ht : threshold cfg = 1) by (unfold threshold; lia).
  set (bs := ballots clients chs) in *.
  assert (Hlens : Forall (fun b : list bool * nat => length (fst b) = bits) bs).
  { apply ballots_all. intros cl Hcl. rewrite Forall_forall in Hc. apply (Hc cl Hcl). }
  assert (Hb0 : exists b, In b bs). { destruct chs as [|ch chs']; [contradiction|]. inversion Hh as [|? ? [Hi _] _]; subst.
    assert (Hlr : length reports = length clients). { clear -Hr. revert reports Hr. induction clients as [|c cs IH]; intros rs H; cbn [mapM] in H; [injection H as <-; reflexivity|].
      bret H as y Hy. bret H as ys Hys. injection H as <-. cbn [length]. rewrite (IH _ Hys). reflexivity. }
    rewrite Hlr in Hi. apply nth_error_Some in Hi. destruct (nth_error clients (ch_idx ch)) as [cl|] eqn:Hcl; [|congruence].
    exists (cl_alpha cl, cl_bucket cl). unfold bs, ballots. cbn [flat_map]. cbn [forallb] in Hall. apply andb_prop in Hall. destruct Hall as [-> _]. rewrite Hcl. left. reflexivity. }
  destruct (main_whh_ok E Hok len bits vk clients reports chs Hb Hr Hc Hh fuel cfg s0 s1) as (t0 & t1 & HW); try assumption.
  { intros _. destruct chs as [|ch chs']; [contradiction|]. cbn [forallb existsb] in *. apply andb_prop in Hall. destruct Hall as [-> _]. reflexivity. }
  { intros _. exact Hall. }
  { intros l Hl1 Hl2. destruct Hb0 as (b & Hbin). exists (firstn l (fst b)). rewrite Forall_forall in Hlens. pose proof (Hlens b Hbin) as Hbl. split; [apply firstn_length_le; lia|].
    unfold popular. rewrite Ht. apply Z.leb_le. fold bs. unfold tally.
    assert (Hin : In b (filter (fun b0 => is_prefix (firstn l (fst b)) (fst b0)) bs)).
    { apply filter_In. split; [exact Hbin|]. clear. generalize (fst b). intros a. revert l. induction a as [|x a IH]; intros [|l]; try reflexivity. cbn. rewrite eqb_reflx. apply IH. }
    destruct (filter (fun b0 => is_prefix (firstn l (fst b)) (fst b0)) bs); [destruct Hin|cbn [length]; lia]. }
  destruct (main_pm_ok E shard len vk pclients chs fuel' cfg' s0' s1') as (u0 & u1 & HP); try assumption.
  eexists t0, t1, _, u0, u1, _. split; [exact HW|]. split; [exact HP|]. intros j Hj.
  rewrite histogram_sum, concat_pieces by assumption. rewrite (votes_ballots clients pclients chs j HF Hmal). fold bs. rewrite <- (buckets_total bits bs j Hlens).
  rewrite map_map, Ht.
  assert (Hv : forall p, entry_of j (res_value (tally_result bs len p)) = tally_bucket bs p j).
  { intros p. unfold entry_of, tally_result. cbn [res_value]. rewrite app_nth1 by (rewrite map_length, seq_length; exact Hj).
    rewrite (nth_indep _ _ (of_Z (tally_bucket bs p 0))) by (rewrite map_length, seq_length; exact Hj).
    rewrite (map_nth (fun j => of_Z (tally_bucket bs p j))), seq_nth by exact Hj. cbn [Nat.add]. apply fval_small.
    pose proof (tally_bucket_le bs p j). pose proof (tally_le bs p). pose proof (ballots_length clients chs). fold bs in H1. lia. }
  symmetry. rewrite (zsum_ext _ (fun p => tally_bucket bs p j)) by (intros; apply Hv).
  apply zsum_filter. intros p _ Hp. unfold popular in Hp. apply Z.leb_gt in Hp. pose proof (tally_bucket_le bs p j). lia.
Qed.
