(** Proofs of C63: the frontier of an honest run, and a run with one report that keeps a whole subtree alive. *)
From Verif Require Import Base BaseFacts Field Util UtilFacts Env Prg Vidpf SpecVidpf SpecTree VidpfFacts VidpfTreeFacts VidpfTreeFacts2 VidpfTreeFacts3 Merkle Collect Server Driver SpecCollect SpecServer SpecDriver SpecCheck SpecLevel SpecWhh SpecSearch SpecLast SpecRun SpecForge SpecOne SpecFlood
  CollectFacts CollectInv ServerFacts DriverFacts DriverPropFacts LevelFacts PairFacts WhhFacts WhhFacts2 FlpFacts WhhFacts3 WhhMain HonestFacts SearchFacts SearchRun SearchMain SearchProp LastFacts RunFacts ForgeFacts ForgeProp ForgeRun HashFacts OneFacts OneForge FloodFacts.

(** *** honest runs *)
Lemma frontier_bound E len bits L vk fuel cfg s0 s1 k :
  env_ok E -> Forall (good_entry E len bits) L -> (Z.of_nat (length L) < 2 ^ 64)%Z -> cfg_hist cfg = len -> 0 < cfg_query_batch cfg -> 1 <= k < bits -> length L <= fuel ->
  uploaded true len bits vk (map e_r0 L) s0 -> uploaded false len bits vk (map e_r1 L) s1 ->
  existsb e_ok L = true -> Forall (fun e => report_verdict E len vk (e_r0 e) (e_r1 e) (e_ok e)) L ->
  (forall l, 1 <= l < k -> exists p, length p = l /\ heavy (threshold cfg) L p = true) ->
  exists i0 i1 t0 t1, call2_done E s0 s1 QTreeInit QTreeInit = Ret (i0, i1) /\ levels_loop fuel E cfg i0 i1 (length L) true k = Ret (t0, t1) /\
    map tn_path (c_frontier (s_coll t0)) = filter (heavy (threshold cfg) L) (all_paths k) /\ map tn_path (c_frontier (s_coll t1)) = filter (heavy (threshold cfg) L) (all_paths k) /\
    (Z.of_nat (length (c_frontier (s_coll t0))) * threshold cfg <= accepted L)%Z /\ (Z.of_nat (length (c_frontier (s_coll t1))) * threshold cfg <= accepted L)%Z.
Proof.
  intros Hok Hgood Hn Hcfg Hbatch Hk Hf U0 U1 Hex Hver Hlv.
  destruct (allowed_defined E Hok len bits L Hgood [] ltac:(cbn; lia)) as [D0 D1].
  destruct (handle_init E len bits L vk _ _ _ U0 D0) as (i0 & HI0 & S0 & V0). destruct (handle_init E len bits L vk _ _ _ U1 D1) as (i1 & HI1 & S1 & V1).
  exists i0, i1. destruct k as [|k]; [lia|]. cbn [levels_loop].
  destruct (flp_run E Hok len bits L vk Hgood cfg Hcfg Hbatch fuel i0 i1 S0 S1 V0 V1 Hf ltac:(lia) Hver) as (t0 & t1 & Ht & Hi).
  assert (Hf1 : 1 <= fuel) by (destruct L; [discriminate Hex|cbn [length] in Hf; lia]).
  destruct (level_step E Hok len bits L Hgood Hn fuel cfg (length L) [[]] 0 t0 t1 Hi) as (u0 & u1 & Hu & Hiu); try assumption; try lia.
  { discriminate. } { intros p [<-|[]]. reflexivity. }
  change [[]] with (frontier_at (threshold cfg) L 0) in Hiu. rewrite frontier_next in Hiu.
  destruct (levels_run E Hok len bits L Hgood Hn cfg Hcfg fuel (length L) Hf1 Hex k 1 u0 u1 Hiu) as (w0 & w1 & Hw & Hiw).
  { lia. } { intros l Hl. apply frontier_nonempty. apply Hlv; lia. }
  exists w0, w1. split; [apply call2_done_ret; eauto|]. split; [rewrite Ht; cbn [bind]; rewrite Hu; exact Hw|].
  destruct Hiw as [(_ & _ & _ & _ & _ & F0) (_ & _ & _ & _ & _ & F1)]. apply fronts_paths in F0, F1. change (1 + k) with (S k) in *. unfold frontier_at in F0, F1.
  split; [exact F0|]. split; [exact F1|]. rewrite <- (map_length tn_path (c_frontier (s_coll w0))), <- (map_length tn_path (c_frontier (s_coll w1))), F0, F1.
  split; apply heavy_bound.
Qed.

Lemma result_bound E len bits L vk fuel cfg s0 s1 t0 t1 rs :
  env_ok E -> Forall (good_entry E len bits) L -> (Z.of_nat (length L) < 2 ^ 64)%Z ->
  cfg_hist cfg = len -> cfg_bits cfg = Some bits -> 0 < cfg_query_batch cfg -> 1 <= bits -> length L <= fuel ->
  uploaded true len bits vk (map e_r0 L) s0 -> uploaded false len bits vk (map e_r1 L) s1 ->
  (2 <= bits -> existsb e_ok L = true /\ Forall (fun e => report_verdict E len vk (e_r0 e) (e_r1 e) (e_ok e)) L) ->
  (bits = 1 -> forallb e_ok L = true) ->
  run_whh fuel E cfg s0 s1 (length L) = Ret (t0, t1, rs) -> (Z.of_nat (length rs) * threshold cfg <= accepted L)%Z.
Proof.
  intros Hok Hgood Hn Hcfg Hcb Hbatch Hb Hf U0 U1 Hv H1 Hrun.
  assert (Hrs : (forall l, 1 <= l -> l + 1 < bits -> exists p, length p = l /\ heavy (threshold cfg) L p = true) -> (Z.of_nat (length rs) * threshold cfg <= accepted L)%Z).
  { intros Hl. destruct (run_whh_any E len bits L vk fuel cfg s0 s1 Hok Hgood Hn Hcfg Hcb Hbatch Hb Hf U0 U1 Hv H1 Hl) as (u0 & u1 & Hr). rewrite Hr in Hrun. injection Hrun as _ _ <-.
    rewrite map_length. apply heavy_bound. }
  destruct (forallb (fun l => negb (length (filter (heavy (threshold cfg) L) (all_paths l)) =? 0)) (seq 1 (bits - 2))) eqn:Hall.
  - apply Hrs. intros l Hl Hlb. rewrite forallb_forall in Hall. specialize (Hall l ltac:(apply in_seq; lia)). apply negb_true_iff, Nat.eqb_neq in Hall.
    destruct (filter (heavy (threshold cfg) L) (all_paths l)) as [|p ps] eqn:Hp; [cbn in Hall; lia|]. assert (Hin : In p (filter (heavy (threshold cfg) L) (all_paths l))) by (rewrite Hp; left; reflexivity).
    apply filter_In in Hin. exists p. split; [apply all_paths_length; apply Hin|apply Hin].
  - exfalso. assert (Hex : existsb (fun l => length (filter (heavy (threshold cfg) L) (all_paths l)) =? 0) (seq 1 (bits - 2)) = true).
    { revert Hall. clear. induction (seq 1 (bits - 2)) as [|x l IH]; [discriminate|]. cbn [forallb existsb]. intros H. apply andb_false_iff in H. destruct H as [H|H]; [apply negb_false_iff in H; rewrite H; reflexivity|]. rewrite (IH H). apply orb_true_r. }
    apply existsb_exists in Hex. destruct Hex as (l & Hl & He). apply in_seq in Hl. apply Nat.eqb_eq in He. apply length_zero_iff_nil in He.
    destruct (Hv ltac:(lia)) as [Hx Hver].
    assert (Hpan := run_whh_empty E Hok len bits L vk Hgood Hn cfg Hcfg Hbatch fuel s0 s1 l U0 U1 Hcb Hf Hx Hver). rewrite Hrun in Hpan. discriminate Hpan; try lia.
    intros p Hp. destruct (heavy (threshold cfg) L p) eqn:Hh; [|reflexivity]. assert (Hin : In p (filter (heavy (threshold cfg) L) (all_paths l))) by (apply filter_In; split; [apply all_paths_length; exact Hp|exact Hh]).
    rewrite He in Hin. destruct Hin.
Qed.

(** *** one report that keeps a subtree alive *)
Lemma fits_none n : forall q, length q <= n -> fits (repeat None n) q = true.
Proof. induction n as [|n IH]; intros [|x q] Hq; cbn in *; try reflexivity; try lia. apply IH. lia. Qed.
Lemma fits_starts b n q : length q <= S n -> fits (Some b :: repeat None n) q = starts b q.
Proof. destruct q as [|x q]; intros Hq; [reflexivity|]. cbn in *. rewrite fits_none by lia. apply andb_true_r. Qed.

Lemma small_z z : (0 <= z < 2 ^ 64)%Z -> (fval (of_Z z) mod 2 ^ 64 = z)%Z.
Proof. intros Hz. rewrite fval_of_Z, (Z.mod_small z P); [apply Z.mod_small; exact Hz|]. split; [lia|]. apply Z.lt_trans with (2 ^ 64)%Z; [lia|reflexivity]. Qed.

Section Flood.
Variable E : env.
Hypothesis Hok : env_ok E.
Variables (len bits : nat) (L : list entry).
Hypothesis Hgood : Forall (good_entry E len bits) L.
Variables (k0 k1 : vidpf_key) (r0 r1 : report_share) (b : bool) (t : nat -> list fld).
Hypothesis Hk0 : key_of r0 = k0.
Hypothesis Hk1 : key_of r1 = k1.
Hypothesis Hstr : forall level paths, (forall p, In p paths -> length p = level) -> level < bits -> verification_string E true len level paths k0 = verification_string E false len level paths k1.
Hypothesis Hprf : forall paths, (forall q, In q paths -> q <> [] /\ length q <= bits) -> proofs_xor E len paths k0 = proofs_xor E len paths k1.
Hypothesis Hval : forall p j, p <> [] -> length p <= bits -> starts b p = true -> j <= len ->
  fadd (nth j (word_at E k0 len p) (of_Z 0)) (nth j (word_at E k1 len p) (of_Z 0)) = nth j (t (length p)) (of_Z 0).
Notation R := (forged_pairs L r0 r1).

Lemma flood_consistent level paths x : (forall p, In p paths -> length p = level) -> S level < bits -> In x (remaining R) -> consistent E len level paths x = true.
Proof.
  intros Hp Hl Hx. rewrite remaining_forged in Hx. apply in_app_iff in Hx. unfold consistent. apply bytes_eqb_eq. unfold vstring. destruct Hx as [Hx|[<-|[]]].
  - unfold pairs_of in Hx. apply in_map_iff in Hx. destruct Hx as (e & <- & He). apply filter_In in He. destruct He as [He Ho]. cbn [share_of snd fst].
    destruct (good_honest E len bits L Hgood _ He Ho) as (Hp' & Ha & Hb). rewrite <- Hb. apply (honest_strings E Hok _ _ _ _ Hp'); [exact Hp|lia].
  - cbn [share_of snd fst]. rewrite Hk0, Hk1. apply Hstr; [exact Hp|lia].
Qed.
Lemma flood_agree paths x : (forall p, In p paths -> S (length p) = bits) -> In x (remaining R) -> SpecLast.proofs_agree E len paths x = true.
Proof.
  intros Hp Hx. rewrite remaining_forged in Hx. apply in_app_iff in Hx. unfold SpecLast.proofs_agree. apply bytes_eqb_eq.
  assert (Hch : forall q, In q (children paths) -> q <> [] /\ length q <= bits).
  { intros q Hq. apply children_in in Hq. destruct Hq as (p & d & Hin & ->). split; [destruct p; discriminate|]. specialize (Hp p Hin). rewrite app_length. cbn. lia. }
  destruct Hx as [Hx|[<-|[]]].
  - unfold pairs_of in Hx. apply in_map_iff in Hx. destruct Hx as (e & <- & He). apply filter_In in He. destruct He as [He Ho]. cbn [share_of snd fst].
    destruct (good_honest E len bits L Hgood _ He Ho) as (Hp' & Ha & Hb). rewrite <- Hb. apply (honest_proofs_xor E Hok _ _ _ _ Hp'). rewrite Ha. exact Hch.
  - cbn [share_of snd fst]. rewrite Hk0, Hk1. apply Hprf. exact Hch.
Qed.
Lemma seen_flood p j : p <> [] -> length p <= bits -> starts b p = true -> j <= len ->
  seen_value E len R p j = fadd (if j =? len then of_Z (count L p) else weight L p j) (nth j (t (length p)) (of_Z 0)).
Proof.
  clear Hstr Hprf. intros Hne Hp Hs Hj. unfold seen_value. rewrite remaining_forged, map_app, fsum_app. f_equal.
  - rewrite <- (val_sum E Hok len bits L Hgood p j Hne Hp Hj). unfold val0, val1.
    rewrite !sum_honest_nth by (try lia; unfold words_of, held0, held1; rewrite !map_length; reflexivity).
    unfold masked_sum, words_of, held0, held1. rewrite !map_map. cbn [fst snd]. rewrite !select_flags, !map_map, fsum_add. unfold pairs_of. rewrite map_map. reflexivity.
  - cbn [map fsum]. cbn [share_of snd fst]. rewrite Hk0, Hk1, Hval by assumption. change (of_Z 0) with fzero. ring.
Qed.

Variables (c : Z) (thr : Z).
Hypothesis Hc0 : (1 <= thr)%Z.
Hypothesis Hc1 : (c + Z.of_nat (length L) < 2 ^ 64)%Z.
Hypothesis Hthr : (thr <= c)%Z.
Hypothesis Hfirst : (thr <= 1 + count L [b])%Z.
Hypothesis Hbits : 2 <= bits.
Hypothesis Ht1 : nth len (t 1) (of_Z 0) = of_Z 1.
Hypothesis Htl : forall l, 2 <= l <= bits -> nth len (t l) (of_Z 0) = of_Z c.

Lemma flood_survives p : 1 <= length p <= bits -> starts b p = true -> (thr <=? seen_count E len R p)%Z = true.
Proof.
  intros Hl Hs. assert (Hne : p <> []) by (intros ->; cbn in Hl; lia).
  change (seen_count E len R p) with (fval (seen_value E len R p len) mod 2 ^ 64)%Z. rewrite seen_flood by (try assumption; lia). rewrite Nat.eqb_refl.
  pose proof (supporters_le L p) as Hsup. assert (Hcnt : (0 <= count L p <= Z.of_nat (length L))%Z) by (unfold count; lia).
  apply Z.leb_le. destruct (Nat.eq_dec (length p) 1) as [H1|Hl1].
  - assert (Hpb : p = [b]). { destruct p as [|x [|y p]]; try discriminate. cbn in Hs. apply eqb_prop in Hs. rewrite Hs. reflexivity. }
    rewrite H1, Ht1, <- of_Z_add, small_z by lia. rewrite Hpb. lia.
  - rewrite Htl, <- of_Z_add, small_z by lia. lia.
Qed.
Lemma flood_levels n : forall level paths, (forall p, In p paths -> length p = level) -> (forall p, length p = level -> starts b p = true -> In p paths) -> level + n < bits ->
  fine_levels E len thr n level paths R /\
  exists paths', levels_effect E len thr n level paths R = Ret (paths', R) /\ (forall p, In p paths' -> length p = level + n) /\ (forall p, length p = level + n -> starts b p = true -> In p paths').
Proof.
  induction n as [|n IH]; intros level paths Hp Hin Hl.
  - split; [exact I|]. exists paths. rewrite Nat.add_0_r. auto.
  - assert (Hb : bad_ranks E len level paths R = []) by (apply bad_ranks_none; intros x Hx; apply flood_consistent; [exact Hp|lia|exact Hx]).
    assert (Hpne : paths <> []).
    { intros ->. apply (Hin (repeat b level)); [apply repeat_length|]. destruct level; [reflexivity|]. cbn. apply eqb_reflx. }
    assert (Hle : level_effect E len thr level paths R = Ret (survivors E len thr R paths, R)).
    { unfold level_effect. rewrite Hb. destruct paths as [|p ps]; [contradiction|]. rewrite remaining_forged, app_length. cbn [length]. rewrite Nat.add_1_r. reflexivity. }
    assert (Hin' : forall p, length p = S level -> starts b p = true -> In p (survivors E len thr R paths)).
    { intros p Hpl Hs. apply filter_In. split; [|apply flood_survives; [lia|exact Hs]].
      destruct (exists_last (l := p)) as (q & d & ->); [intros ->; discriminate|]. rewrite app_length in Hpl. cbn in Hpl. apply children_in. exists q, d. split; [|reflexivity].
      apply Hin; [lia|]. destruct q; [reflexivity|exact Hs]. }
    assert (Hp' : forall p, In p (survivors E len thr R paths) -> length p = S level) by (intros p; apply survivors_length; exact Hp).
    destruct (IH (S level) _ Hp' Hin' ltac:(lia)) as (Hf & paths' & He & Hpl & Hi). cbn [fine_levels levels_effect]. rewrite Hle. cbn [bind]. split.
    + split; [intros Hx; contradiction|exact Hf].
    + exists paths'. replace (level + S n) with (S level + n) by lia. auto.
Qed.
Lemma flood_effect batch : fine_levels E len thr (bits - 1) 0 [[]] R /\
  exists rs, run_effect E len thr batch bits R = Ret rs /\ forall p, length p = bits -> starts b p = true -> In (seen_result E len R p) rs.
Proof.
  destruct (flood_levels (bits - 1) 0 [[]]) as (Hf & paths & He & Hp & Hin).
  - intros p [<-|[]]. reflexivity.
  - intros p Hp _. destruct p; [left; reflexivity|discriminate].
  - lia.
  - split; [exact Hf|]. unfold run_effect. rewrite He. cbn [bind].
    assert (Hall : forallb (SpecLast.proofs_agree E len paths) (firstn (compared (length R) (length (remaining R)) batch) (remaining R)) = true).
    { apply forallb_forall. intros x Hx. assert (Hx' : In x (remaining R)) by (rewrite <- (firstn_skipn (compared (length R) (length (remaining R)) batch) (remaining R)); apply in_app_iff; left; exact Hx).
      apply flood_agree; [|exact Hx']. intros p Hpin. rewrite (Hp p Hpin). lia. }
    rewrite Hall. eexists. split; [reflexivity|]. intros p Hpl Hs. apply in_map. apply filter_In. split; [|apply flood_survives; [lia|exact Hs]].
    destruct (exists_last (l := p)) as (q & d & ->); [intros ->; cbn in Hpl; lia|]. rewrite app_length in Hpl. cbn in Hpl. apply children_in. exists q, d. split; [|reflexivity].
    apply Hin; [lia|]. destruct q; [reflexivity|exact Hs].
Qed.
End Flood.

(** the values: honest at the first level, then the weights halve and the counter is c *)
Definition flood_values (beta : list fld) (c : Z) (l : nat) : list fld := map (halved (l - 1)) beta ++ [of_Z (if l =? 1 then 1 else c)].
Definition flood_key (bits : nat) (beta : list fld) (b : bool) (c : Z) (seed : bytes) (i : bool) : vidpf_key :=
  z_key (Some b :: repeat None (bits - 1)) (flood_values beta c) seed i.

Section Run.
Variables (E : env) (bits : nat) (beta : list fld) (b : bool) (c : Z) (seed : bytes).
Hypothesis Hok : env_ok E.
Hypothesis Hseed : length seed = 16.
Hypothesis Hbits : 2 <= bits.
Notation len := (length beta).
Notation k0 := (flood_key bits beta b c seed false).
Notation k1 := (flood_key bits beta b c seed true).
Notation V := (z_value (Some b :: repeat None (bits - 1)) len (flood_values beta c)).

Lemma values_length l : length (flood_values beta c l) = len + 1.
Proof. clear Hok Hseed Hbits. unfold flood_values. rewrite app_length, map_length. reflexivity. Qed.
Lemma pat_length : length (Some b :: repeat (@None bool) (bits - 1)) = bits.
Proof. clear Hok Hseed. cbn [length]. rewrite repeat_length. lia. Qed.
Lemma flood_usable i : usable bits (flood_key bits beta b c seed i).
Proof. pose proof (z_usable (Some b :: repeat None (bits - 1)) len (flood_values beta c) seed Hseed values_length i) as H. rewrite pat_length in H. exact H. Qed.
Lemma flood_comp q j : q <> [] -> length q <= bits -> j <= len -> fadd (nth j (word_at E k0 len q) (of_Z 0)) (nth j (word_at E k1 len q) (of_Z 0)) = nth j (V q) (of_Z 0).
Proof. intros Hne Hq Hj. apply z_comp; try assumption; [apply values_length|rewrite pat_length; exact Hq]. Qed.
Lemma flood_proof q : q <> [] -> length q <= bits -> proof_at E k0 len q = proof_at E k1 len q.
Proof. intros Hne Hq. apply z_at; try assumption; [apply values_length|rewrite pat_length; exact Hq]. Qed.
Lemma value_starts q : length q <= bits -> V q = if starts b q then flood_values beta c (length q) else repeat (of_Z 0) (len + 1).
Proof. clear Hok Hseed. intros Hq. unfold z_value. rewrite fits_starts by lia. reflexivity. Qed.
Lemma flood_get l j : j < len -> nth j (flood_values beta c l) (of_Z 0) = halved (l - 1) (nth j beta (of_Z 0)).
Proof. clear Hok Hseed Hbits. intros Hj. unfold flood_values. rewrite app_nth1 by (rewrite map_length; exact Hj). rewrite (nth_indep _ _ (halved (l - 1) (of_Z 0))) by (rewrite map_length; exact Hj). apply map_nth. Qed.
Lemma flood_counter l : nth len (flood_values beta c l) (of_Z 0) = of_Z (if l =? 1 then 1 else c).
Proof. clear Hok Hseed Hbits. unfold flood_values. rewrite app_nth2, map_length, Nat.sub_diag by (rewrite map_length; lia). reflexivity. Qed.
Lemma flood_root : fadd (nth len (V [false]) (of_Z 0)) (nth len (V [true]) (of_Z 0)) = of_Z 1.
Proof. clear Hok Hseed.
  rewrite !value_starts by (cbn; lia). destruct b; cbn [starts Bool.eqb length]; rewrite flood_counter, nth_repeat; cbn [Nat.eqb]; change (of_Z 0) with fzero; ring.
Qed.
Lemma flood_split p j : p <> [] -> length p < bits -> j < len -> fadd (nth j (V (p ++ [false])) (of_Z 0)) (nth j (V (p ++ [true])) (of_Z 0)) = nth j (V p) (of_Z 0).
Proof. clear Hok Hseed.
  intros Hne Hp Hj. rewrite !value_starts by (rewrite ?app_length; cbn; lia). destruct p as [|x p]; [contradiction|]. cbn [app starts].
  destruct (Bool.eqb x b).
  - rewrite !flood_get by exact Hj. cbn [length]. rewrite !app_length. cbn [length]. replace (S (length p + 1) - 1) with (S (length p)) by lia. replace (S (length p) - 1) with (length p) by lia.
    cbn [halved]. apply half_twice.
  - rewrite nth_repeat. change (of_Z 0) with fzero. ring.
Qed.
Lemma flood_shares : shares_of (beta_share E len k0) (beta_share E len k1) beta.
Proof.
  assert (Hl : forall i, length (beta_share E len (flood_key bits beta b c seed i)) = len) by (intros i; unfold beta_share, sum_vec; rewrite map_length, seq_length; reflexivity).
  apply vec_add_shares; [rewrite !Hl; reflexivity|]. apply (nth_ext _ _ (of_Z 0) (of_Z 0)); [rewrite vec_add_length, Hl; reflexivity|].
  intros j Hj. rewrite vec_add_length, Hl in Hj. rewrite vec_add_get by (rewrite Hl; exact Hj). unfold beta_share, sum_vec.
  assert (Hm : forall f : nat -> fld, nth j (map f (seq 0 len)) (of_Z 0) = f j) by (intros f; apply nth_map_in; rewrite nth_error_seq by lia; reflexivity).
  rewrite !Hm. transitivity (fadd (nth j (V [false]) (of_Z 0)) (nth j (V [true]) (of_Z 0))).
  - rewrite <- !flood_comp by (try discriminate; cbn; lia). ring.
  - rewrite !value_starts by (cbn; lia). destruct b; cbn [starts Bool.eqb length]; rewrite flood_get, nth_repeat by exact Hj; cbn [Nat.sub halved]; change (of_Z 0) with fzero; ring.
Qed.
Lemma flood_verdict vk nonce prove_rand proof p0 p1 :
  flp_prove E len beta prove_rand (seed_joint E len seed nonce) = Some proof -> shares_of p0 p1 proof ->
  flp_complete E len beta prove_rand (seed_joint E len seed nonce) (query_rand E len vk nonce) ->
  report_verdict E len vk (RSMastic nonce k0 p0 (seed_parts E seed nonce)) (RSMastic nonce k1 p1 (seed_parts E seed nonce)) true.
Proof. intros Hp Hs Hc. destruct (Hc proof _ _ p0 p1 Hp flood_shares Hs) as (v0 & v1 & A & B & D). exists v0, v1. auto. Qed.
End Run.

Lemma flood_run E len bits vk cfg L b beta c seed nonce prove_rand proof p0 p1 :
  env_ok E -> Forall (good_entry E len bits) L -> Forall (fun e => report_verdict E len vk (e_r0 e) (e_r1 e) (e_ok e)) L ->
  length beta = len -> 2 <= bits -> length seed = 16 ->
  flp_prove E len beta prove_rand (seed_joint E len seed nonce) = Some proof -> shares_of p0 p1 proof ->
  flp_complete E len beta prove_rand (seed_joint E len seed nonce) (query_rand E len vk nonce) ->
  (threshold cfg <= c)%Z -> (c + Z.of_nat (length L) < 2 ^ 64)%Z -> (threshold cfg <= 1 + count L [b])%Z ->
  cfg_hist cfg = len -> cfg_bits cfg = Some bits -> 0 < cfg_query_batch cfg ->
  exists k0 k1, usable bits k0 /\ usable bits k1 /\ same_public k0 k1 /\ forall fuel s0 s1,
    uploaded true len bits vk (map e_r0 L ++ [RSMastic nonce k0 p0 (seed_parts E seed nonce)]) s0 ->
    uploaded false len bits vk (map e_r1 L ++ [RSMastic nonce k1 p1 (seed_parts E seed nonce)]) s1 -> length L + 3 <= fuel ->
    exists t0 t1 rs, run_whh fuel E cfg s0 s1 (length L + 1) = Ret (t0, t1, rs) /\ 2 ^ (bits - 1) <= length rs /\
      forall p, length p = bits -> starts b p = true ->
        In {| res_path := p; res_value := map (fun j => fadd (weight L p j) (halved (bits - 1) (nth j beta (of_Z 0)))) (seq 0 len) ++ [of_Z (count L p + c)] |} rs.
Proof.
  intros Hok Hgood Hver Hbe Hb Hseed Hpr Hsh Hcomp Hthr Hc Hfirst Hcfg Hcb Hbatch. subst len.
  exists (flood_key bits beta b c seed false), (flood_key bits beta b c seed true). split; [apply flood_usable; assumption|]. split; [apply flood_usable; assumption|]. split; [split; reflexivity|].
  intros fuel s0 s1 U0 U1 Hf.
  pose proof (flood_verdict E bits beta b c seed Hok Hseed Hb vk nonce prove_rand proof p0 p1 Hpr Hsh Hcomp) as Hv.
  set (r0 := RSMastic nonce (flood_key bits beta b c seed false) p0 (seed_parts E seed nonce)) in *. set (r1 := RSMastic nonce (flood_key bits beta b c seed true) p1 (seed_parts E seed nonce)) in *.
  set (R := forged_pairs L r0 r1).
  assert (HnR : length R = length L + 1) by (unfold R, forged_pairs, pairs_of; rewrite app_length, map_length; reflexivity).
  pose proof (flood_comp E bits beta b c seed Hok Hseed Hb) as Hco. pose proof (flood_proof E bits beta b c seed Hok Hseed Hb) as Hpf.
  pose proof (pair_strings E _ _ _ bits _ Hco Hpf (flood_root bits beta b c Hb) (flood_split bits beta b c Hb)) as Hstr. pose proof (pair_proofs E _ _ _ bits Hpf) as Hprf.
  assert (Hval : forall p j, p <> [] -> length p <= bits -> starts b p = true -> j <= length beta ->
    fadd (nth j (word_at E (flood_key bits beta b c seed false) (length beta) p) (of_Z 0)) (nth j (word_at E (flood_key bits beta b c seed true) (length beta) p) (of_Z 0)) = nth j (flood_values beta c (length p)) (of_Z 0)).
  { intros p j Hne Hp Hs Hj. rewrite Hco by assumption. rewrite value_starts by assumption. rewrite Hs. reflexivity. }
  assert (Htl : forall l, 2 <= l <= bits -> nth (length beta) (flood_values beta c l) (of_Z 0) = of_Z c).
  { intros l Hl. rewrite flood_counter, (proj2 (Nat.eqb_neq l 1)) by lia. reflexivity. }
  destruct (flood_effect E Hok (length beta) bits L Hgood _ _ r0 r1 b (flood_values beta c) eq_refl eq_refl Hstr Hprf Hval c (threshold cfg)
    ltac:(unfold threshold; lia) Hc Hthr Hfirst Hb (flood_counter beta c 1) Htl (cfg_query_batch cfg)) as (Hfine & rs & He & Hin). fold R in Hfine, He, Hin.
  destruct (run_exact fuel E cfg (length beta) bits vk R s0 s1) as (t0 & t1 & Hrun); try assumption; try lia.
  - unfold R, forged_pairs, well_formed_pairs. apply Forall_app. split.
    + unfold pairs_of. apply Forall_map. eapply Forall_impl; [|exact Hgood]. intros e (A & B & _). split; assumption.
    + constructor; [|constructor]. cbn [share_of fst snd]. split; eexists _, _, _, _; (split; [reflexivity|]); apply flood_usable; assumption.
  - unfold flp_flags. rewrite (proj2 (Nat.eqb_neq bits 1)) by lia. unfold R, forged_pairs. apply Forall_app. split.
    + unfold pairs_of. apply Forall_map. eapply Forall_impl; [|exact Hver]. intros e H. exact H.
    + constructor; [|constructor]. exact Hv.
  - unfold R, forged_pairs, pairs_of. rewrite map_app, map_map. exact U0.
  - unfold R, forged_pairs, pairs_of. rewrite map_app, map_map. exact U1.
  - rewrite HnR in Hrun. rewrite He in Hrun. cbn [bind] in Hrun. exists t0, t1, rs. split; [exact Hrun|].
    assert (Hres : forall p, length p = bits -> starts b p = true -> seen_result E (length beta) R p =
      {| res_path := p; res_value := map (fun j => fadd (weight L p j) (halved (bits - 1) (nth j beta (of_Z 0)))) (seq 0 (length beta)) ++ [of_Z (count L p + c)] |}).
    { intros p Hp Hs. assert (Hne : p <> []) by (intros ->; cbn in Hp; lia). unfold seen_result. f_equal. rewrite seq_app, map_app. cbn [seq map Nat.add].
      assert (Hsv : forall j, j <= length beta -> seen_value E (length beta) R p j = fadd (if j =? length beta then of_Z (count L p) else weight L p j) (nth j (flood_values beta c bits) (of_Z 0))).
      { intros j Hj. unfold R. rewrite (seen_flood E Hok (length beta) bits L Hgood _ _ r0 r1 b (flood_values beta c) eq_refl eq_refl Hval) by (try assumption; lia). rewrite Hp. reflexivity. }
      f_equal.
      - apply map_ext_in. intros j Hj. apply in_seq in Hj. rewrite Hsv by lia. rewrite (proj2 (Nat.eqb_neq j _)), flood_get by lia. reflexivity.
      - rewrite Hsv by lia. rewrite Nat.eqb_refl, of_Z_add, flood_counter, (proj2 (Nat.eqb_neq bits 1)) by lia. reflexivity. }
    split.
    + assert (Hinc : incl (map (cons b) (all_paths (bits - 1))) (map res_path rs)).
      { intros p Hp. apply in_map_iff in Hp. destruct Hp as (q & <- & Hq). apply all_paths_length in Hq. apply in_map_iff. exists (seen_result E (length beta) R (b :: q)).
        split; [reflexivity|]. apply Hin; [cbn; lia|]. cbn. apply eqb_reflx. }
      apply NoDup_incl_length in Hinc.
      * rewrite !map_length, all_paths_count in Hinc. exact Hinc.
      * apply FinFun.Injective_map_NoDup; [intros x y H; injection H as H; exact H|apply all_paths_nodup].
    + intros p Hp Hs. rewrite <- Hres by assumption. apply Hin; assumption.
Qed.
