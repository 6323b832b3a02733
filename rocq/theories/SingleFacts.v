(** Proofs for C89. *)
From Verif Require Import Base BaseFacts Field Util UtilFacts Env Prg Vidpf Merkle Collect Server Driver Modes SpecVidpf SpecTree SpecCollect SpecLevel SpecWhh SpecMetrics SpecModes
  CollectFacts WhhFacts WhhFacts2 WhhFacts3 WhhMain ModesFacts ModesMain PmMain SpecAgree AgreeFacts SpecSingle.
From Coq Require Import Lia Permutation.

Lemma own_ends b n i : 0 < b -> own_batch b n i -> nth_error (batch_ends n b) (i / b) = Some (i + 1) /\ (forall k, i / b = S k -> nth_error (batch_ends n b) k = Some i) /\ i = i / b * b.
Proof.
  intros Hb (Hi & Hm & Ho). set (k := i / b). assert (Hk : i = k * b) by (pose proof (Nat.div_mod i b ltac:(lia)) as H; fold k in H; lia).
  assert (Hq : k < (n + b - 1) / b) by (apply Nat.div_le_lower_bound; nia).
  assert (He : forall j, j < (n + b - 1) / b -> nth_error (batch_ends n b) j = Some (Nat.min n ((j + 1) * b))).
  { intros j Hj. unfold batch_ends. rewrite nth_error_map', nth_error_seq by exact Hj. reflexivity. }
  split; [|split; [|exact Hk]].
  - rewrite He by exact Hq. f_equal. destruct Ho as [->|Ho]; nia.
  - intros j Hj. rewrite He by lia. f_equal. rewrite Hk, Hj. nia.
Qed.
Lemma in_table_app debug clients l l' : in_table debug clients (l ++ l') = in_table debug clients l ++ in_table debug clients l'.
Proof. unfold in_table. apply flat_map_app. Qed.
Lemma in_table_length debug clients l : length (in_table debug clients l) <= length l.
Proof.
  unfold in_table. induction l as [|ch l IH]; [reflexivity|]. cbn [flat_map]. rewrite app_length. cbn [length].
  destruct (negb debug || counts ch); [|cbn [length]; lia]. destruct (nth_error clients (ch_idx ch)); cbn [length]; lia.
Qed.
Lemma tally_bucket_app bs bs' p j : (tally_bucket (bs ++ bs') p j = tally_bucket bs p j + tally_bucket bs' p j)%Z.
Proof. unfold tally_bucket. rewrite filter_app, app_length. lia. Qed.
Lemma reading_tally tables k len attrs bs a j : nth_error tables k = Some (tally_table len attrs bs) -> In a attrs -> j < len -> (Z.of_nat (length bs) < 2 ^ 64)%Z ->
  reading tables k a j = tally_bucket bs a j.
Proof.
  intros Hk Ha Hj Hb. unfold reading. rewrite (nth_error_nth _ _ _ Hk). unfold tally_table.
  assert (Hf : find (fun e => if list_eq_dec Bool.bool_dec (fst e) a then true else false) (map (fun a => (a, map (fun j => of_Z (tally_bucket bs a j)) (seq 0 len))) attrs) = Some (a, map (fun j => of_Z (tally_bucket bs a j)) (seq 0 len))).
  { clear -Ha. induction attrs as [|x attrs IH]; [destruct Ha|]. cbn [map find fst]. destruct (list_eq_dec Bool.bool_dec x a) as [->|Hne]; [reflexivity|]. apply IH. destruct Ha as [->|Ha]; [contradiction|exact Ha]. }
  rewrite Hf. cbn [snd]. rewrite (nth_indep _ (of_Z 0) (of_Z (tally_bucket bs a 0))) by (rewrite map_length, seq_length; exact Hj).
  rewrite (map_nth (fun j => of_Z (tally_bucket bs a j))), seq_nth by exact Hj. cbn [Nat.add]. apply fval_small. pose proof (tally_bucket_le bs a j). pose proof (tally_le bs a). lia.
Qed.
Lemma prefix_eq : forall p a : list bool, length p = length a -> is_prefix p a = if list_eq_dec Bool.bool_dec p a then true else false.
Proof.
  induction p as [|x p IH]; intros [|y a] Hl; try discriminate; [reflexivity|]. cbn [is_prefix]. injection Hl as Hl. rewrite (IH a Hl).
  destruct (list_eq_dec Bool.bool_dec p a) as [->|Hne]; destruct (list_eq_dec Bool.bool_dec (x :: _) (y :: a)) as [He|He]; rewrite ?andb_true_r, ?andb_false_r; try reflexivity.
  - injection He as ->. destruct y; reflexivity.
  - destruct x, y; try reflexivity; contradiction He; reflexivity.
  - injection He as _ He. contradiction.
Qed.

(** attribute-based metrics *)
Lemma single_abm E len bits vk clients reports chs samples order fuel cfg s0 s1 :
  env_ok E -> 1 <= bits -> mapM (gen_report E len) clients = Ret reports ->
  Forall (good_client E len bits vk) clients -> Forall (good_choice E len vk reports) chs -> fixed_verifier_len E len ->
  cfg_hist cfg = len -> 0 < cfg_query_batch cfg -> 0 < cfg_add_batch cfg -> hist_ok len = true -> clients <> [] -> length chs <= fuel -> (Z.of_nat (length chs) < 2 ^ 64)%Z ->
  running 0 bits s0 -> (exists id, id <> 0%Z /\ running id bits s1) ->
  (forall s, In s samples -> 1 <= s < length clients) -> (forall l, Permutation (order l) l) ->
  exists t0 t1 tables, main_abm fuel E cfg clients vk chs samples order s0 s1 = Ret (t0, t1, tables) /\
    forall i ch cl s c a j, own_batch (cfg_query_batch cfg) (length chs) i -> nth_error chs i = Some ch -> counts ch = true -> nth_error clients (ch_idx ch) = Some cl ->
      In s samples -> nth_error clients s = Some c -> a = cl_alpha c -> j < len ->
      growth tables (i / cfg_query_batch cfg) a j = if list_eq_dec Bool.bool_dec a (cl_alpha cl) then (if cl_bucket cl =? j then 1%Z else 0%Z) else 0%Z.
Proof.
  intros Hok Hb Hr Hc Hh Hfix A1 A2 A3 A4 Hne Hf Hn R0 R1 Hs Ho.
  destruct (main_abm_ok E len bits vk clients reports chs samples order fuel cfg s0 s1) as (t0 & t1 & attrs & HA & Hnd & Hin); try assumption.
  eexists t0, t1, _. split; [exact HA|]. intros i ch cl s c a j Hi Hch Hct Hcl Hss Hsc Ha Hj.
  assert (Haa : In a attrs) by (apply Hin; exists s, c; auto).
  destruct (own_ends _ _ _ A2 Hi) as (E1 & E2 & E3). set (b := cfg_query_batch cfg) in *. unfold growth.
  assert (Hsmall : forall l : list choice, length l <= length chs -> (Z.of_nat (length (in_table (dbg E) clients l)) < 2 ^ 64)%Z) by (intros l Hl; pose proof (in_table_length (dbg E) clients l); lia).
  assert (Hsp : in_table (dbg E) clients (firstn (i + 1) chs) = in_table (dbg E) clients (firstn i chs) ++ [(cl_alpha cl, cl_bucket cl)]).
  { replace (i + 1) with (S i) by lia. rewrite (firstn_S_snoc _ _ _ Hch), in_table_app. f_equal. unfold in_table. cbn [flat_map]. rewrite Hct, Bool.orb_true_r, Hcl. reflexivity. }
  rewrite (reading_tally _ _ len attrs (in_table (dbg E) clients (firstn (i + 1) chs)) a j) by (first [assumption | rewrite nth_error_map', E1; reflexivity | apply Hsmall; rewrite firstn_length; lia]).
  rewrite Hsp, tally_bucket_app, tally_bucket_cons, tally_bucket_nil. cbn [fst snd].
  assert (Hlen : length a = length (cl_alpha cl)). { rewrite Forall_forall in Hc. rewrite Ha. transitivity bits; [apply (Hc c), (nth_error_In _ _ Hsc)|symmetry; apply (Hc cl), (nth_error_In _ _ Hcl)]. }
  rewrite (prefix_eq a (cl_alpha cl) Hlen).
  assert (Hprev : match i / b with 0 => 0%Z | S k' => reading (map (fun e => tally_table len attrs (in_table (dbg E) clients (firstn e chs))) (batch_ends (length chs) b)) k' a j end = tally_bucket (in_table (dbg E) clients (firstn i chs)) a j).
  { destruct (i / b) as [|k'] eqn:Hk.
    - replace i with 0 by lia. reflexivity.
    - apply reading_tally with (len := len) (attrs := attrs); try assumption; [rewrite nth_error_map', (E2 k' eq_refl); reflexivity|apply Hsmall; rewrite firstn_length; lia]. }
  rewrite Hprev. destruct (list_eq_dec Bool.bool_dec a (cl_alpha cl)); cbn [andb]; [destruct (cl_bucket cl =? j)|]; lia.
Qed.

(** plain metrics *)
Lemma single_histogram len m : vote_histogram len [Some m] = (single_vote len m, 0%Z).
Proof. unfold vote_histogram, single_vote. f_equal. apply map_ext. intros j. cbn [filter]. destruct (m =? j); reflexivity. Qed.
Lemma single_pm E shard len vk clients chs fuel cfg s0 s1 :
  (forall cl, In cl clients -> shard len (pc_bucket cl) (pc_nonce cl) (pc_rand cl) <> None) -> Forall (good_pm_choice E shard len vk clients) chs ->
  cfg_hist cfg = len -> hist_ok len = true -> clients <> [] -> 0 < cfg_query_batch cfg -> 0 < cfg_add_batch cfg ->
  length chs <= fuel -> (Z.of_nat (length chs) < 2 ^ 64)%Z ->
  s_poison s0 = false -> s_id s0 = 0%Z -> s_poison s1 = false -> s_id s1 = 1%Z ->
  exists t0 t1 tables, main_pm fuel E shard cfg clients vk chs s0 s1 = Ret (t0, t1, tables) /\
    forall i ch cl, own_batch (cfg_query_batch cfg) (length chs) i -> nth_error chs i = Some ch -> ch_malicious ch = false -> nth_error clients (ch_idx ch) = Some cl ->
      nth_error tables (i / cfg_query_batch cfg) = Some (single_vote len (pc_bucket cl), 0%Z).
Proof.
  intros H1 H2 H3 H4 H5 Hb H7 H8 H9 H10 H11 H12 H13. destruct (main_pm_ok E shard len vk clients chs fuel cfg s0 s1) as (t0 & t1 & H); try assumption.
  eexists t0, t1, _. split; [exact H|]. intros i ch cl Hi Hch Hm Hcl. destruct (own_ends _ _ _ Hb Hi) as (E1 & _ & E3). set (b := cfg_query_batch cfg) in *. set (k := i / b) in *.
  assert (Hk : k < (length chs + b - 1) / b). { assert (Hnn : nth_error (batch_ends (length chs) b) k <> None) by congruence. apply nth_error_Some in Hnn. unfold batch_ends in Hnn. rewrite map_length, seq_length in Hnn. exact Hnn. }
  assert (Hv : nth_error (pm_votes clients chs) i = Some (Some (pc_bucket cl))) by (unfold pm_votes; rewrite nth_error_map', Hch; cbn [option_map]; rewrite Hm, Hcl; reflexivity).
  assert (Hl : length (pm_votes clients chs) = length chs) by apply map_length.
  rewrite nth_error_map'. unfold pieces. rewrite nth_error_map', nth_error_seq by (rewrite Hl; exact Hk). cbn [option_map Nat.add]. rewrite <- E3, <- single_histogram. do 2 f_equal.
  destruct (nth_error_split _ _ Hv) as (l1 & l2 & Hs & Hl1). rewrite Hs, <- Hl1, skipn_app, skipn_all, Nat.sub_diag. cbn [app skipn].
  destruct Hi as (_ & _ & [->|Hlast]); [reflexivity|]. assert (l2 = []) as -> by (apply length_zero_iff_nil; rewrite Hs, app_length in Hl; cbn [length] in Hl; lia). destruct b; [lia|]. cbn [firstn]. rewrite firstn_nil. reflexivity.
Qed.

(** nothing else: the tables are functions of the votes of each batch, in any order *)
Lemma perm_filter_length {A} (f : A -> bool) l l' : Permutation l l' -> length (filter f l) = length (filter f l').
Proof. induction 1 as [|x l l' _ IH|x y l|l l' l'' _ IH1 _ IH2]; cbn [filter]; [reflexivity|destruct (f x); cbn [length]; lia|destruct (f x), (f y); reflexivity|congruence]. Qed.
Lemma histogram_perm len vs vs' : Permutation vs vs' -> vote_histogram len vs = vote_histogram len vs'.
Proof. intros H. unfold vote_histogram. f_equal; [apply map_ext; intros j|]; f_equal; apply perm_filter_length, H. Qed.
Lemma histograms_perm len l l' : Forall2 (@Permutation (option nat)) l l' -> map (vote_histogram len) l = map (vote_histogram len) l'.
Proof. induction 1 as [|x y l l' Hxy _ IH]; [reflexivity|]. cbn [map]. rewrite IH, (histogram_perm len _ _ Hxy). reflexivity. Qed.
Lemma batches_pm E shard len vk clients chs fuel cfg s0 s1 E' shard' vk' clients' chs' fuel' cfg' s0' s1' :
  (forall cl, In cl clients -> shard len (pc_bucket cl) (pc_nonce cl) (pc_rand cl) <> None) -> Forall (good_pm_choice E shard len vk clients) chs ->
  cfg_hist cfg = len -> hist_ok len = true -> clients <> [] -> 0 < cfg_query_batch cfg -> 0 < cfg_add_batch cfg ->
  length chs <= fuel -> (Z.of_nat (length chs) < 2 ^ 64)%Z -> s_poison s0 = false -> s_id s0 = 0%Z -> s_poison s1 = false -> s_id s1 = 1%Z ->
  (forall cl, In cl clients' -> shard' len (pc_bucket cl) (pc_nonce cl) (pc_rand cl) <> None) -> Forall (good_pm_choice E' shard' len vk' clients') chs' ->
  cfg_hist cfg' = len -> clients' <> [] -> 0 < cfg_query_batch cfg' -> 0 < cfg_add_batch cfg' ->
  length chs' <= fuel' -> (Z.of_nat (length chs') < 2 ^ 64)%Z -> s_poison s0' = false -> s_id s0' = 0%Z -> s_poison s1' = false -> s_id s1' = 1%Z ->
  Forall2 (@Permutation (option nat)) (pieces (cfg_query_batch cfg) (pm_votes clients chs)) (pieces (cfg_query_batch cfg') (pm_votes clients' chs')) ->
  exists t0 t1 t0' t1' tables, main_pm fuel E shard cfg clients vk chs s0 s1 = Ret (t0, t1, tables) /\ main_pm fuel' E' shard' cfg' clients' vk' chs' s0' s1' = Ret (t0', t1', tables).
Proof.
  intros. destruct (main_pm_ok E shard len vk clients chs fuel cfg s0 s1) as (t0 & t1 & HA); try assumption.
  destruct (main_pm_ok E' shard' len vk' clients' chs' fuel' cfg' s0' s1') as (t0' & t1' & HB); try assumption.
  exists t0, t1, t0', t1'. eexists. split; [exact HA|]. rewrite HB. do 2 f_equal. symmetry. apply histograms_perm. assumption.
Qed.
Lemma firstn_pieces {A} b : 0 < b -> forall k (l : list A), firstn (k * b) l = concat (firstn k (pieces b l)).
Proof.
  intros Hb. induction k as [|k IH]; intros l; [reflexivity|]. destruct l as [|x l']; [rewrite pieces_nil by exact Hb; rewrite !firstn_nil; reflexivity|].
  rewrite pieces_cons by (try exact Hb; discriminate). set (l := x :: l'). cbn [firstn concat]. rewrite <- IH. cbn [Nat.mul].
  rewrite <- (firstn_skipn b l) at 1. rewrite firstn_app, firstn_firstn. replace (Nat.min (b + k * b) b) with b by lia. f_equal. rewrite firstn_length.
  destruct (Nat.le_gt_cases b (length l)) as [Hl|Hl]; [f_equal; lia|]. rewrite !skipn_all2 by lia. rewrite !firstn_nil. reflexivity.
Qed.
Lemma pieces_length {A} b (l : list A) : length (pieces b l) = (length l + b - 1) / b.
Proof. unfold pieces. rewrite map_length, seq_length. reflexivity. Qed.
Lemma in_table_concat debug clients ps : in_table debug clients (concat ps) = concat (map (in_table debug clients) ps).
Proof. induction ps as [|p ps IH]; [reflexivity|]. cbn [concat map]. rewrite in_table_app, IH. reflexivity. Qed.
Lemma concat_perm {A} (l l' : list (list A)) : Forall2 (@Permutation A) l l' -> Permutation (concat l) (concat l').
Proof. induction 1 as [|x y l l' H _ IH]; [constructor|]. cbn [concat]. apply Permutation_app; assumption. Qed.
Lemma Forall2_firstn {A B} (R : A -> B -> Prop) l l' : Forall2 R l l' -> forall k, Forall2 R (firstn k l) (firstn k l').
Proof. induction 1 as [|x y l l' H _ IH]; intros [|k]; cbn [firstn]; constructor; auto. Qed.
Lemma table_at_end {A} (f : list choice -> A) chs b k : 0 < b -> nth_error (map (fun e => f (firstn e chs)) (batch_ends (length chs) b)) k =
  if k <? (length chs + b - 1) / b then Some (f (concat (firstn (k + 1) (pieces b chs)))) else None.
Proof.
  intros Hb. rewrite nth_error_map'. unfold batch_ends. rewrite nth_error_map'. destruct (Nat.ltb_spec k ((length chs + b - 1) / b)) as [Hk|Hk].
  - rewrite nth_error_seq by exact Hk. cbn [option_map Nat.add]. do 2 f_equal. rewrite <- firstn_pieces by exact Hb. destruct (Nat.le_gt_cases (length chs) ((k + 1) * b)) as [Hc|Hc]; [rewrite !firstn_all2 by lia; reflexivity|f_equal; lia].
  - rewrite (proj2 (nth_error_None (seq 0 _) k)) by (rewrite seq_length; exact Hk). reflexivity.
Qed.
Lemma batches_abm E len bits vk clients reports chs samples order fuel cfg s0 s1 E' bits' vk' clients' reports' chs' samples' order' fuel' cfg' s0' s1' t0 t1 tables t0' t1' tables' :
  env_ok E -> 1 <= bits -> mapM (gen_report E len) clients = Ret reports ->
  Forall (good_client E len bits vk) clients -> Forall (good_choice E len vk reports) chs -> fixed_verifier_len E len ->
  cfg_hist cfg = len -> 0 < cfg_query_batch cfg -> 0 < cfg_add_batch cfg -> hist_ok len = true -> clients <> [] -> length chs <= fuel ->
  running 0 bits s0 -> (exists id, id <> 0%Z /\ running id bits s1) -> (forall s, In s samples -> 1 <= s < length clients) -> (forall l, Permutation (order l) l) ->
  env_ok E' -> 1 <= bits' -> mapM (gen_report E' len) clients' = Ret reports' ->
  Forall (good_client E' len bits' vk') clients' -> Forall (good_choice E' len vk' reports') chs' -> fixed_verifier_len E' len ->
  cfg_hist cfg' = len -> 0 < cfg_query_batch cfg' -> 0 < cfg_add_batch cfg' -> clients' <> [] -> length chs' <= fuel' ->
  running 0 bits' s0' -> (exists id, id <> 0%Z /\ running id bits' s1') -> (forall s, In s samples' -> 1 <= s < length clients') -> (forall l, Permutation (order' l) l) ->
  Forall2 (@Permutation (list bool * nat)) (map (in_table (dbg E) clients) (pieces (cfg_query_batch cfg) chs)) (map (in_table (dbg E') clients') (pieces (cfg_query_batch cfg') chs')) ->
  main_abm fuel E cfg clients vk chs samples order s0 s1 = Ret (t0, t1, tables) -> main_abm fuel' E' cfg' clients' vk' chs' samples' order' s0' s1' = Ret (t0', t1', tables') ->
  length tables = length tables' /\ forall k t t' a w w', nth_error tables k = Some t -> nth_error tables' k = Some t' -> In (a, w) t -> In (a, w') t' -> w = w'.
Proof.
  intros ? ? ? ? ? ? ? Hb ? ? ? ? ? ? ? ? ? ? ? ? ? ? ? Hb' ? ? ? ? ? ? ? HP HA HB.
  destruct (main_abm_ok E len bits vk clients reports chs samples order fuel cfg s0 s1) as (u0 & u1 & attrs & HA' & _); try assumption.
  destruct (main_abm_ok E' len bits' vk' clients' reports' chs' samples' order' fuel' cfg' s0' s1') as (u0' & u1' & attrs' & HB' & _); try assumption.
  rewrite HA in HA'. injection HA' as _ _ ->. rewrite HB in HB'. injection HB' as _ _ ->.
  pose proof (Forall2_len _ _ _ HP) as HL. rewrite !map_length, !pieces_length in HL. split; [unfold batch_ends; rewrite !map_length, !seq_length; exact HL|].
  intros k t t' a w w' Ht Ht' Hw Hw'. set (b := cfg_query_batch cfg) in *. set (b' := cfg_query_batch cfg') in *.
  rewrite (table_at_end (fun l => tally_table len attrs (in_table (dbg E) clients l)) chs b k Hb) in Ht. rewrite (table_at_end (fun l => tally_table len attrs' (in_table (dbg E') clients' l)) chs' b' k Hb') in Ht'.
  destruct (k <? _); [|discriminate]. destruct (k <? _); [|discriminate]. injection Ht as <-. injection Ht' as <-.
  unfold tally_table in Hw, Hw'. apply in_map_iff in Hw, Hw'. destruct Hw as (x & Hx & _). destruct Hw' as (y & Hy & _). injection Hx as -> <-. injection Hy as -> <-.
  apply map_ext. intros j. f_equal. unfold tally_bucket. f_equal. apply perm_filter_length. rewrite !in_table_concat, <- !firstn_map. apply concat_perm, Forall2_firstn, HP.
Qed.
