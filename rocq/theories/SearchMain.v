(** The search of run_level: what it ends with in every case. *)
From Verif Require Import Base BaseFacts Field Util UtilFacts Env Prg Vidpf SpecVidpf SpecTree Merkle Collect Server Driver SpecCollect SpecServer SpecDriver SpecCheck SpecLevel SpecWhh SpecSearch
  CollectFacts CollectInv ServerFacts DriverFacts RefuteFacts MerkleFacts LevelFacts PairFacts WhhFacts WhhFacts2 SearchFacts SearchRun.

(** *** lists of pairs *)
Lemma held_nth first R i : nth_error (held first R) i = option_map (fun x => (fst x, share_of first x)) (nth_error R i).
Proof. apply nth_error_map'. Qed.
Lemma held_length first R : length (held first R) = length R.
Proof. apply map_length. Qed.
Lemma clear_nth is R i : nth_error (clear_at is R) i = option_map (fun x : pair => (fst x && negb (existsb (Nat.eqb i) is), snd x)) (nth_error R i).
Proof.
  unfold clear_at. rewrite nth_error_map', nth_error_combine. destruct (nth_error R i) as [x|] eqn:Hx.
  - rewrite nth_error_seq by (apply nth_error_Some; congruence). reflexivity.
  - destruct (nth_error (seq 0 (length R)) i); reflexivity.
Qed.
Lemma clear_length is R : length (clear_at is R) = length R.
Proof. unfold clear_at. rewrite map_length, combine_length, seq_length. lia. Qed.
Lemma held_clear first is R i : nth_error (held first (clear_at is R)) i =
  option_map (fun hr : bool * report_share => (fst hr && negb (existsb (Nat.eqb i) is), snd hr)) (nth_error (held first R) i).
Proof. rewrite !held_nth, clear_nth. destruct (nth_error R i) as [[h [a b]]|]; [|reflexivity]. destruct first; reflexivity. Qed.
Lemma held_remaining first R : filter (fun hr : bool * report_share => fst hr) (held first R) = held first (remaining R).
Proof. unfold held, remaining. induction R as [|[h x] R IH]; [reflexivity|]. cbn [map filter fst]. destruct h; [cbn [map]; f_equal|]; exact IH. Qed.
Lemma remaining_le R : length (remaining R) <= length R.
Proof. unfold remaining. induction R as [|[[|] x] R IH]; cbn [filter fst length]; lia. Qed.

Section Keep.
Variables (E : env) (len : nat).
Lemma strings_held first level paths R : strings_of E first len level paths (held first R) = map (vstring E first len level paths) (remaining R).
Proof. unfold strings_of. rewrite held_remaining. unfold held. rewrite map_map. reflexivity. Qed.
Lemma keep_seen thr paths R :
  keep_values len thr (values_of E len paths (held true R)) (values_of E len paths (held false R)) = Ret (map (fun p => (thr <=? seen_count E len R p)%Z) (children paths)).
Proof.
  unfold values_of. rewrite keep_values_total.
  - rewrite !map_map, combine_maps, map_map. f_equal. apply map_ext. intros p. cbn [fst snd mknode tn_value]. do 3 f_equal.
    rewrite !sum_honest_nth by (try lia; unfold words_of; rewrite map_length; reflexivity). unfold masked_sum, words_of, held. rewrite !map_map. cbn [fst snd].
    rewrite !select_flags, !map_map, fsum_add. reflexivity.
  - apply Forall_forall. intros v Hv. rewrite map_map in Hv. apply in_map_iff in Hv. destruct Hv as (p & <- & _). cbn. rewrite sum_honest_length. lia.
  - apply Forall_forall. intros v Hv. rewrite map_map in Hv. apply in_map_iff in Hv. destruct Hv as (p & <- & _). cbn. rewrite sum_honest_length. lia.
Qed.
Lemma values_length paths reps : length (values_of E len paths reps) = length (children paths).
Proof. unfold values_of. rewrite !map_length. reflexivity. Qed.
End Keep.

Lemma filter_seq_more (f : nat -> bool) m q : m <= q -> (forall j, m <= j -> f j = false) -> filter f (seq 0 q) = filter f (seq 0 m).
Proof.
  intros Hq Hf. replace q with (m + (q - m)) by lia. rewrite seq_app, filter_app. cbn [Nat.add].
  assert (Hn : forall a b, m <= a -> filter f (seq a b) = []).
  { intros a b. revert a. induction b as [|b IH]; intros a Ha; [reflexivity|]. cbn [seq filter]. rewrite Hf by exact Ha. apply IH. lia. }
  rewrite (Hn m (q - m)) by lia. apply app_nil_r.
Qed.
Lemma log2_up_le n : 1 <= n -> n <= 2 ^ Nat.log2_up n.
Proof. intros H. destruct (Nat.eq_dec n 1) as [->|Hn]; [cbn; lia|]. apply Nat.log2_up_spec. lia. Qed.
Lemma log2_up_gt n c : 1 <= n -> c < Nat.log2_up n -> 2 ^ c < n.
Proof.
  intros H Hc. destruct (Nat.eq_dec n 1) as [->|Hn]; [cbn in Hc; lia|]. pose proof (Nat.log2_up_spec n ltac:(lia)) as [Hs _].
  apply Nat.le_lt_trans with (2 ^ Nat.pred (Nat.log2_up n)); [apply Nat.pow_le_mono_r; lia|exact Hs].
Qed.

Section Search.
Variable E : env.
Hypothesis Hok : env_ok E.
Variables (len bits level : nat) (paths : list (list bool)) (R : list pair) (s0 s1 : server) (thr : Z).
Hypothesis H0 : side E len bits true (held true R) paths s0.
Hypothesis H1 : side E len bits false (held false R) paths s1.
Hypothesis Hwf : Forall (fun x => well_formed bits (share_of true x) /\ well_formed bits (share_of false x)) R.
Hypothesis Hne : paths <> [].
Hypothesis Hp : forall p, In p paths -> length p = level.
Hypothesis Hl : level < bits.

Notation m := (length (remaining R)).
Notation K := (Nat.log2_up m).
Notation n := (length R).
Notation h0 := (map (vstring E true len level paths) (remaining R)).
Notation h1 := (map (vstring E false len level paths) (remaining R)).
Hypothesis Hm : 1 <= m.
Hypothesis Hclog : clog2f E m = K.
Hypothesis Hnc : no_collision E h0 h1.

Lemma hlen : length h0 = length h1. Proof. rewrite !map_length. reflexivity. Qed.
Lemma h0_len : length h0 = m. Proof. apply map_length. Qed.
Lemma h1_len : length h1 = m. Proof. apply map_length. Qed.
Lemma clog0 : clog2f E (length h0) = K. Proof. rewrite h0_len. exact Hclog. Qed.
Lemma clog1 : clog2f E (length h1) = K. Proof. rewrite h1_len. exact Hclog. Qed.
Lemma h0_ne : h0 <> []. Proof. destruct (remaining R); [cbn in Hm; lia|discriminate]. Qed.
Lemma h1_ne : h1 <> []. Proof. destruct (remaining R); [cbn in Hm; lia|discriminate]. Qed.
Lemma defs first p : length p <= bits -> defined_at E len (held first R) p.
Proof.
  intros Hpl. apply (wf_defined E Hok bits); [|exact Hpl]. unfold held. rewrite map_map. cbn [snd]. apply Forall_map. eapply Forall_impl; [|exact Hwf].
  intros x [Ha Hb]. destruct first; assumption.
Qed.

Notation cs0 := (crawled_server E s0 paths).
Notation cs1 := (crawled_server E s1 paths).
Notation v0 := (values_of E len paths (held true R)).
Notation v1 := (values_of E len paths (held false R)).
Notation B := (bad_blocks h0 h1).

Lemma ask_first : ask_servers E (s0, s1) 1 [] false = Ret ((cs0, cs1), (v0, map (fun j => root_or E (block K j h0)) [0], [0]), (v1, map (fun j => root_or E (block K j h1)) [0], [0])).
Proof.
  unfold ask_servers, call2. cbn [fst snd].
  rewrite (first_crawl E len bits true (held true R) paths level s0 H0 Hne Hp Hl (defs true)).
  rewrite (first_crawl E len bits false (held false R) paths level s1 H1 Hne Hp Hl (defs false)). rewrite !strings_held.
  rewrite (merkle_first E h0 K [] clog0 h0_ne), (merkle_first E h1 K [] clog1 h1_ne). reflexivity.
Qed.
Lemma ask_again c M : S c <= K -> M <> [] -> (forall i, In i M -> differ h0 h1 (K - c) i = true) ->
  ask_servers E (cs0, cs1) (2 ^ S c) M false =
  Ret ((cs0, cs1), (v0, map (fun j => root_or E (block (K - S c) j h0)) (kids_of (K - S c) m M), kids_of (K - S c) m M),
                   (v1, map (fun j => root_or E (block (K - S c) j h1)) (kids_of (K - S c) m M), kids_of (K - S c) m M)).
Proof.
  intros Hc HM Hin. unfold ask_servers, call2. cbn [fst snd].
  rewrite (again_crawl E len bits true (held true R) paths level s0 H0 Hne Hp Hl (defs true)) by exact HM.
  rewrite (again_crawl E len bits false (held false R) paths level s1 H1 Hne Hp Hl (defs false)) by exact HM. rewrite !strings_held.
  assert (Hi : forall i, In i M -> 2 * i * 2 ^ (K - S c) < m).
  { intros i Hx. apply Hin in Hx. apply differ_in in Hx; [|exact hlen]. rewrite h0_len in Hx. replace (K - c) with (S (K - S c)) in Hx by lia. cbn [Nat.pow] in Hx. lia. }
  rewrite (merkle_split E h0 (K - S c) c M), (merkle_split E h1 (K - S c) c M).
  - rewrite h0_len, h1_len. reflexivity.
  - rewrite clog1. lia.
  - rewrite h1_len. exact Hi.
  - rewrite clog0. lia.
  - rewrite h0_len. exact Hi.
Qed.
Lemma ask_too_many M : M <> [] -> ask_servers E (cs0, cs1) (2 ^ S K) M false = Panic PArith.
Proof.
  intros HM. unfold ask_servers, call2. cbn [fst snd].
  rewrite (again_crawl E len bits true (held true R) paths level s0 H0 Hne Hp Hl (defs true)) by exact HM.
  rewrite (again_crawl E len bits false (held false R) paths level s1 H1 Hne Hp Hl (defs false)) by exact HM. rewrite !strings_held.
  rewrite (merkle_too_many E h0) by (rewrite h0_len, Hclog; lia). rewrite (merkle_too_many E h1) by (rewrite h1_len, Hclog; lia). reflexivity.
Qed.

(** the indices found at step c *)
Lemma found_first : mismatches (v0, map (fun j => root_or E (block K j h0)) [0], [0]) (v1, map (fun j => root_or E (block K j h1)) [0], [0]) = Ret (B K 0).
Proof.
  pose proof (mismatches_maps (fun j => root_or E (block K j h0)) (fun j => root_or E (block K j h1)) (fun j => j) v0 v1 [0]) as Hx. cbn [map] in Hx |- *.
  rewrite Hx. rewrite map_id. unfold bad_blocks. cbn [Nat.pow seq filter]. rewrite (root_differ E h0 h1 hlen Hnc) by (rewrite h0_len; cbn; lia). reflexivity.
Qed.
Lemma found_again c : S c <= K ->
  mismatches (v0, map (fun j => root_or E (block (K - S c) j h0)) (kids_of (K - S c) m (B (K - c) c)), kids_of (K - S c) m (B (K - c) c))
             (v1, map (fun j => root_or E (block (K - S c) j h1)) (kids_of (K - S c) m (B (K - c) c)), kids_of (K - S c) m (B (K - c) c)) = Ret (B (K - S c) (S c)).
Proof.
  intros Hc. set (l := kids_of (K - S c) m (B (K - c) c)).
  pose proof (mismatches_maps (fun j => root_or E (block (K - S c) j h0)) (fun j => root_or E (block (K - S c) j h1)) (fun j => j) v0 v1 l) as Hx.
  rewrite !map_id in Hx. rewrite Hx. f_equal. rewrite <- (bad_next h0 h1 hlen). replace (S (K - S c)) with (K - c) by lia. rewrite h0_len. fold l.
  apply filter_ext_in. intros j Hj. apply (root_differ E h0 h1 hlen Hnc); rewrite h0_len; [lia|].
  unfold l, kids_of in Hj. apply in_flat_map in Hj. destruct Hj as (i & Hi & Hj). apply bad_in in Hi. apply differ_in in Hi; [|exact hlen]. rewrite h0_len in Hi.
  replace (K - c) with (S (K - S c)) in Hi by lia. cbn [Nat.pow] in Hi. unfold kids in Hj. destruct ((2 * i + 1) * 2 ^ (K - S c) <? m) eqn:Hx2.
  - apply Nat.ltb_lt in Hx2. destruct Hj as [<-|[<-|[]]]; lia.
  - destruct Hj as [<-|[]]. lia.
Qed.
Lemma kids_nonempty k M : M <> [] -> kids_of k m M <> [].
Proof. destruct M as [|i M]; [contradiction|]. intros _. cbn. unfold kids. destruct (_ <? _); discriminate. Qed.

Notation LL := (fun fuel ss split M last => level_loop fuel (ask_servers E) len n thr ss split M last).

(** one step of the loop after the first *)
Lemma step_again fuel c : S c <= K -> B (K - c) c <> [] ->
  LL (S fuel) (cs0, cs1) (2 ^ S c) (B (K - c) c) false =
  if n <=? 2 ^ S c then let! '(s, k, q) := LL fuel (cs0, cs1) (2 ^ S c) (B (K - S c) (S c)) true in Ret (s, k, q + 1)
  else let! '(s, k, q) := LL fuel (cs0, cs1) (2 ^ S (S c)) (B (K - S c) (S c)) false in Ret (s, k, q + 1).
Proof.
  intros Hc HM. cbn [level_loop]. rewrite (ask_again c _ Hc HM) by (intros i Hi; apply bad_in in Hi; exact Hi). cbn [bind].
  rewrite !values_length, (proj2 (assert_true _) (Nat.eqb_refl _)). cbn [bind]. rewrite keep_seen. cbn [bind]. rewrite map_length.
  pose proof (kids_nonempty (K - S c) _ HM) as Hk. rewrite (proj2 (Nat.eqb_neq _ 0)) by (intros Hx; apply length_zero_iff_nil in Hx; contradiction).
  rewrite (found_again c Hc). cbn [bind].
  assert (Hb : B (K - S c) (S c) <> []) by (apply (bad_next_nonempty h0 h1 hlen); replace (S (K - S c)) with (K - c) by lia; exact HM).
  destruct (B (K - S c) (S c)) as [|i l]; [contradiction|]. replace (2 ^ S c * 2) with (2 ^ S (S c)) by (cbn [Nat.pow]; lia). reflexivity.
Qed.
Lemma step_first fuel : LL (S fuel) (s0, s1) 1 [] false =
  match B K 0 with
  | [] => Ret ((cs0, cs1), map (fun p => (thr <=? seen_count E len R p)%Z) (children paths), 1)
  | _ => if n <=? 1 then let! '(s, k, q) := LL fuel (cs0, cs1) 1 (B K 0) true in Ret (s, k, q + 1)
         else let! '(s, k, q) := LL fuel (cs0, cs1) 2 (B K 0) false in Ret (s, k, q + 1)
  end.
Proof.
  cbn [level_loop]. rewrite ask_first. cbn [bind]. rewrite !values_length, (proj2 (assert_true _) (Nat.eqb_refl _)). cbn [bind]. rewrite keep_seen. cbn [bind].
  rewrite map_length. cbn [length Nat.eqb]. rewrite found_first. cbn [bind]. reflexivity.
Qed.

(** *** the last request *)
Notation R' := (clear_at (B 0 K) R).
Lemma bad_bound i : In i (B 0 K) -> i < n.
Proof.
  intros Hi. apply bad_in in Hi. apply differ_in in Hi; [|exact hlen]. rewrite h0_len in Hi. cbn [Nat.pow] in Hi. pose proof (remaining_le R). lia.
Qed.
Definition ended (thr' : Z) (P : list pair) (ss : server * server) : Prop :=
  side E len bits true (held true P) (children paths) (fst ss) /\ c_frontier (s_coll (fst ss)) = map (mknode E len (held true P)) (children paths) /\
  side E len bits false (held false P) (children paths) (snd ss) /\ c_frontier (s_coll (snd ss)) = map (mknode E len (held false P)) (children paths).
Lemma merkle_last hs split M : hs <> [] -> exists r, merkle_part E hs split M true = Ret ([r], [0]).
Proof.
  intros Hx. assert (Heq : merkle_part E hs split M true = merkle_part E hs 1 M true) by reflexivity. rewrite Heq, merkle_one by exact Hx.
  destruct (merkle_root_some E (firstn (2 ^ clog2f E (length hs)) hs)) as [r Hr].
  - pose proof (pow2_ge1 (clog2f E (length hs))). destruct (2 ^ clog2f E (length hs)); [lia|]. destruct hs; [contradiction|discriminate].
  - rewrite Hr. exists r. reflexivity.
Qed.
Lemma last_request fuel split : n <= split -> B 0 K <> [] ->
  (remaining R' <> [] -> exists ss, LL (S fuel) (cs0, cs1) split (B 0 K) true = Ret (ss, map (fun p => (thr <=? seen_count E len R' p)%Z) (children paths), 1) /\ ended thr R' ss) /\
  (remaining R' = [] -> LL (S fuel) (cs0, cs1) split (B 0 K) true = Panic PIndex).
Proof.
  intros Hn HM.
  destruct (last_crawl E len bits true (held true R) paths level s0 H0 Hne Hp Hl (defs true) split (B 0 K) (held true R') HM) as (t0 & HH0 & S0 & F0);
    [intros i Hi; rewrite held_length; apply bad_bound; exact Hi|intros i; apply held_clear|].
  destruct (last_crawl E len bits false (held false R) paths level s1 H1 Hne Hp Hl (defs false) split (B 0 K) (held false R') HM) as (t1 & HH1 & S1 & F1);
    [intros i Hi; rewrite held_length; apply bad_bound; exact Hi|intros i; apply held_clear|].
  rewrite strings_held in HH0, HH1. split.
  - intros Hr. destruct (merkle_last (map (vstring E true len level paths) (remaining R')) split (B 0 K)) as [r0 M0]; [destruct (remaining R'); [contradiction|discriminate]|].
    destruct (merkle_last (map (vstring E false len level paths) (remaining R')) split (B 0 K)) as [r1 M1]; [destruct (remaining R'); [contradiction|discriminate]|].
    rewrite M0 in HH0. rewrite M1 in HH1. cbn [answer] in HH0, HH1. exists (t0, t1). split; [|split; [exact S0|split; [exact F0|split; [exact S1|exact F1]]]].
    cbn [level_loop]. unfold ask_servers at 1, call2. cbn [fst snd]. rewrite HH0, HH1. cbn [bind].
    rewrite !values_length, (proj2 (assert_true _) (Nat.eqb_refl _)). cbn [bind]. rewrite keep_seen. cbn [bind length Nat.eqb mismatches seq foldM index nth_error].
    rewrite (proj2 (Nat.leb_le n split)) by exact Hn. destruct (bytes_eqb r0 r1); cbn [bind app]; [reflexivity|].
    rewrite (proj2 (assert_true _)) by reflexivity. reflexivity.
  - intros Hr. rewrite Hr in HH0, HH1. cbn [map] in HH0, HH1. rewrite merkle_none in HH0, HH1. cbn [answer] in HH0, HH1.
    cbn [level_loop]. unfold ask_servers at 1, call2. cbn [fst snd]. rewrite HH0, HH1. reflexivity.
Qed.

(** *** the whole loop *)
Lemma bad_chain : forall c, c <= K -> B K 0 <> [] -> B (K - c) c <> [].
Proof.
  induction c as [|c IH]; intros Hc Hb; [rewrite Nat.sub_0_r; exact Hb|]. apply (bad_next_nonempty h0 h1 hlen). replace (S (K - S c)) with (K - c) by lia. apply IH; [lia|exact Hb].
Qed.
Lemma bad_chain_nil : forall c, c <= K -> B K 0 = [] -> B (K - c) c = [].
Proof.
  induction c as [|c IH]; intros Hc Hb; [rewrite Nat.sub_0_r; exact Hb|]. rewrite <- (bad_next h0 h1 hlen). replace (S (K - S c)) with (K - c) by lia. rewrite IH by (lia || exact Hb). reflexivity.
Qed.
(** no rank differs iff the roots agree *)
Lemma bad_ranks_blocks : bad_ranks E len level paths R = B 0 K.
Proof.
  unfold bad_blocks. rewrite (filter_seq_more _ m).
  - unfold bad_ranks. apply filter_ext_in. intros i Hi. apply in_seq in Hi. unfold differ. rewrite !block_one, !nth_error_map'.
    destruct (nth_error (remaining R) i) as [x|] eqn:Hx; [|apply nth_error_None in Hx; lia]. cbn [option_map list_eqb]. rewrite andb_true_r. reflexivity.
  - apply log2_up_le. exact Hm.
  - intros j Hj. apply differ_past; [exact hlen|]. rewrite h0_len. cbn [Nat.pow]. lia.
Qed.

Lemma loop_same : Nat.log2_up n = K -> B K 0 <> [] -> forall j c fuel, S c + j = K -> j + 2 <= fuel ->
  forall ss k, (forall f split, n <= split -> LL (S f) (cs0, cs1) split (B 0 K) true = Ret (ss, k, 1)) ->
  exists q, LL fuel (cs0, cs1) (2 ^ S c) (B (K - c) c) false = Ret (ss, k, q).
Proof.
  intros Hn Hb. induction j as [|j IH]; intros c fuel Hc Hf ss k HL; (destruct fuel as [|fuel]; [lia|]); pose proof (bad_chain c ltac:(lia) Hb) as Hbc;
    pose proof (step_again fuel c ltac:(lia) Hbc) as Hs; cbn beta in Hs |- *; rewrite Hs.
  - assert (Hk : S c = K) by lia. rewrite Hk. pose proof (remaining_le R). pose proof (log2_up_le n ltac:(lia)) as Hlt. rewrite Hn in Hlt.
    rewrite (proj2 (Nat.leb_le n (2 ^ K))) by exact Hlt. rewrite Nat.sub_diag. destruct fuel as [|fuel]; [lia|]. specialize (HL fuel (2 ^ K) Hlt). cbn beta in HL. rewrite HL. cbn [bind]. eauto.
  - pose proof (remaining_le R). pose proof (log2_up_gt n (S c) ltac:(lia) ltac:(lia)) as Hlt. rewrite (proj2 (Nat.leb_gt n (2 ^ S c))) by lia.
    destruct (IH (S c) fuel ltac:(lia) ltac:(lia) ss k HL) as [q Hq]. rewrite Hq. cbn [bind]. eauto.
Qed.
Lemma loop_same_panic : Nat.log2_up n = K -> B K 0 <> [] -> forall j c fuel, S c + j = K -> j + 2 <= fuel ->
  forall p, (forall f split, n <= split -> LL (S f) (cs0, cs1) split (B 0 K) true = Panic p) ->
  LL fuel (cs0, cs1) (2 ^ S c) (B (K - c) c) false = Panic p.
Proof.
  intros Hn Hb. induction j as [|j IH]; intros c fuel Hc Hf p HL; (destruct fuel as [|fuel]; [lia|]); pose proof (bad_chain c ltac:(lia) Hb) as Hbc;
    pose proof (step_again fuel c ltac:(lia) Hbc) as Hs; cbn beta in Hs |- *; rewrite Hs.
  - assert (Hk : S c = K) by lia. rewrite Hk. pose proof (remaining_le R). pose proof (log2_up_le n ltac:(lia)) as Hlt. rewrite Hn in Hlt.
    rewrite (proj2 (Nat.leb_le n (2 ^ K))) by exact Hlt. rewrite Nat.sub_diag. destruct fuel as [|fuel]; [lia|]. specialize (HL fuel (2 ^ K) Hlt). cbn beta in HL. rewrite HL. reflexivity.
  - pose proof (remaining_le R). pose proof (log2_up_gt n (S c) ltac:(lia) ltac:(lia)) as Hlt. rewrite (proj2 (Nat.leb_gt n (2 ^ S c))) by lia.
    rewrite (IH (S c) fuel ltac:(lia) ltac:(lia) p HL). reflexivity.
Qed.
Lemma loop_more : K < Nat.log2_up n -> B K 0 <> [] -> forall j c fuel, c + j = K -> j + 1 <= fuel ->
  LL fuel (cs0, cs1) (2 ^ S c) (B (K - c) c) false = Panic PArith.
Proof.
  intros Hn Hb. induction j as [|j IH]; intros c fuel Hc Hf; (destruct fuel as [|fuel]; [lia|]); pose proof (bad_chain c ltac:(lia) Hb) as Hbc.
  - assert (Hk : c = K) by lia. rewrite Hk in *. cbn [level_loop]. rewrite ask_too_many by exact Hbc. reflexivity.
  - pose proof (step_again fuel c ltac:(lia) Hbc) as Hs; cbn beta in Hs |- *; rewrite Hs.
    pose proof (remaining_le R). pose proof (log2_up_gt n (S c) ltac:(lia) ltac:(lia)) as Hlt. rewrite (proj2 (Nat.leb_gt n (2 ^ S c))) by lia.
    rewrite (IH (S c) fuel ltac:(lia) ltac:(lia)). reflexivity.
Qed.

Lemma search_all fuel : K + 2 <= fuel -> 
  (B 0 K = [] -> exists q, LL fuel (s0, s1) 1 [] false = Ret ((cs0, cs1), map (fun p => (thr <=? seen_count E len R p)%Z) (children paths), q) /\ ended thr R (cs0, cs1)) /\
  (B 0 K <> [] -> Nat.log2_up n = K -> remaining R' <> [] ->
     exists ss q, LL fuel (s0, s1) 1 [] false = Ret (ss, map (fun p => (thr <=? seen_count E len R' p)%Z) (children paths), q) /\ ended thr R' ss) /\
  (B 0 K <> [] -> Nat.log2_up n = K -> remaining R' = [] -> LL fuel (s0, s1) 1 [] false = Panic PIndex) /\
  (B 0 K <> [] -> K < Nat.log2_up n -> LL fuel (s0, s1) 1 [] false = Panic PArith).
Proof.
  intros Hf. destruct fuel as [|fuel]; [lia|]. pose proof (step_first fuel) as Hs. cbn beta in Hs |- *. rewrite Hs. clear Hs.
  assert (Hb0 : B 0 K <> [] -> B K 0 <> []).
  { intros Hx Hy. apply Hx. pose proof (bad_chain_nil K ltac:(lia) Hy) as Hz. rewrite Nat.sub_diag in Hz. exact Hz. }
  pose proof (remaining_le R) as Hrl.
  split; [|split; [|split]].
  - intros Hb. assert (Hk : B K 0 = []). { destruct (B K 0) as [|i l] eqn:Hx; [reflexivity|]. exfalso. assert (Hy : B K 0 <> []) by (rewrite Hx; discriminate).
      pose proof (bad_chain K ltac:(lia) Hy) as Hz. rewrite Nat.sub_diag in Hz. contradiction. }
    rewrite Hk. exists 1. split; [reflexivity|]. unfold ended. cbn [fst snd]. destruct (side_crawled E len bits _ _ _ _ H0) as [A1 A2]. destruct (side_crawled E len bits _ _ _ _ H1) as [A3 A4]. auto.
  - intros Hb Hn Hr. specialize (Hb0 Hb). destruct (last_request 0 n (le_n _) Hb) as [HL _]. destruct (HL Hr) as (ss & HLs & He). exists ss.
    assert (HLL : forall f split, n <= split -> LL (S f) (cs0, cs1) split (B 0 K) true = Ret (ss, map (fun p => (thr <=? seen_count E len R' p)%Z) (children paths), 1)).
    { intros f split Hsp. cbn beta in HLs |- *. rewrite <- HLs. cbn [level_loop]. unfold ask_servers, call2.
      rewrite (proj2 (Nat.leb_le n split) Hsp), Nat.leb_refl. reflexivity. }
    destruct (B K 0) as [|i l] eqn:Hx; [contradiction|]. rewrite <- Hx in *. destruct (Nat.eq_dec n 1) as [H1n|H1n].
    + rewrite H1n, Nat.leb_refl. assert (HK0 : K = 0) by (rewrite <- Hn, H1n; reflexivity). destruct fuel as [|fuel]; [lia|].
      replace (B K 0) with (B 0 K) by (rewrite HK0; reflexivity). specialize (HLL fuel 1). cbn beta in HLL. rewrite H1n in HLL. rewrite HLL by lia. cbn [bind]. eauto.
    + rewrite (proj2 (Nat.leb_gt n 1)) by lia. assert (HK1 : 1 <= K) by (rewrite <- Hn; apply Nat.log2_up_pos; lia).
      assert (Hy : B K 0 <> []) by (rewrite Hx; discriminate).
      destruct (loop_same Hn Hy (K - 1) 0 fuel ltac:(lia) ltac:(lia) ss _ HLL) as [q Hq]. rewrite Nat.sub_0_r in Hq. cbn [Nat.pow Nat.mul Nat.add] in Hq. rewrite Hq. cbn [bind]. eauto.
  - intros Hb Hn Hr. specialize (Hb0 Hb).
    assert (HLL : forall f split, n <= split -> LL (S f) (cs0, cs1) split (B 0 K) true = Panic PIndex) by (intros f split Hsp; apply (last_request f split Hsp Hb); exact Hr).
    destruct (B K 0) as [|i l] eqn:Hx; [contradiction|]. rewrite <- Hx in *. destruct (Nat.eq_dec n 1) as [H1n|H1n].
    + rewrite H1n, Nat.leb_refl. assert (HK0 : K = 0) by (rewrite <- Hn, H1n; reflexivity). destruct fuel as [|fuel]; [lia|].
      replace (B K 0) with (B 0 K) by (rewrite HK0; reflexivity). specialize (HLL fuel 1). cbn beta in HLL. rewrite H1n in HLL. rewrite HLL by lia. reflexivity.
    + rewrite (proj2 (Nat.leb_gt n 1)) by lia. assert (HK1 : 1 <= K) by (rewrite <- Hn; apply Nat.log2_up_pos; lia).
      assert (Hy : B K 0 <> []) by (rewrite Hx; discriminate).
      pose proof (loop_same_panic Hn Hy (K - 1) 0 fuel ltac:(lia) ltac:(lia) _ HLL) as Hq. rewrite Nat.sub_0_r in Hq. cbn [Nat.pow Nat.mul Nat.add] in Hq. rewrite Hq. reflexivity.
  - intros Hb Hn. specialize (Hb0 Hb). destruct (B K 0) as [|i l] eqn:Hx; [contradiction|]. rewrite <- Hx in *. assert (Hy : B K 0 <> []) by (rewrite Hx; discriminate).
    assert (1 < n). { destruct (Nat.le_gt_cases n 1) as [Hle|Hgt]; [|exact Hgt]. exfalso. rewrite (Nat.log2_up_eqn0 n) in Hn by lia. lia. }
    rewrite (proj2 (Nat.leb_gt n 1)) by lia. pose proof (loop_more Hn Hy K 0 fuel ltac:(lia) ltac:(lia)) as Hq. rewrite Nat.sub_0_r in Hq. cbn [Nat.pow Nat.mul Nat.add] in Hq. rewrite Hq. reflexivity.
Qed.
End Search.
