(** Forged counters (C28) and forged values at the last level (C29). *)
From Verif Require Import Base BaseFacts Field Util Env Prg Vidpf SpecVidpf SpecTree VidpfFacts VidpfTreeFacts3 Merkle Collect Server Driver SpecCollect SpecServer SpecCheck SpecLevel SpecWhh SpecForge
  LevelFacts PairFacts HonestFacts ForgeFacts.

Lemma firstn_base (b : list fld) x : firstn (length b) (b ++ [x]) = b.
Proof. rewrite firstn_app, Nat.sub_diag, firstn_all, firstn_O. apply app_nil_r. Qed.

Lemma prefix_firstn l (a : list bool) : is_prefix (firstn l a) a = true.
Proof. rewrite <- (firstn_skipn l a) at 2. apply is_prefix_app. Qed.

(** any target values [t] by prefix length that agree with the honest ones where the code looks *)
Lemma forge_any E k0 k1 alpha beta t :
  env_ok E -> honest_keys E k0 k1 alpha beta -> 1 <= length alpha -> (forall l, length (t l) = length beta + 1) ->
  t 1 = beta ++ [of_Z 1] -> (forall l, l < length alpha -> firstn (length beta) (t l) = beta) ->
  exists k0' k1', same_checks E true (length beta) (length alpha) k0 k0' /\ same_checks E false (length beta) (length alpha) k1 k1' /\
    wf_key (length alpha) k0' /\ wf_key (length alpha) k1' /\
    forall p, p <> [] -> length p <= length alpha ->
      value_at E (length beta) k0' k1' p = if is_prefix p alpha then t (length p) else repeat (of_Z 0) (length beta + 1).
Proof.
  intros Hok Hk Hb Ht H1 Hmid. pose proof (honest_keys_pair _ _ _ _ _ Hok Hk) as Hh.
  exists (add_words (deltas E k0 alpha beta t) k0), (add_words (deltas E k0 alpha beta t) k1).
  destruct (forged_same_checks E Hok k0 k1 alpha beta Hh t Ht Hb H1 Hmid) as [A B]. destruct (forged_wf E Hok k0 k1 alpha beta Hh t) as [C D].
  split; [exact A|]. split; [exact B|]. split; [exact C|]. split; [exact D|]. intros p Hp Hl. apply (forged_value E Hok k0 k1 alpha beta Hh t Ht p Hp Hl).
Qed.

(** the counters are [c], the weights the honest ones *)
Definition counters (beta : list fld) (c : nat -> fld) (l : nat) : list fld := if l =? 1 then beta ++ [of_Z 1] else beta ++ [c l].
Lemma forge_counter E k0 k1 alpha beta c :
  env_ok E -> honest_keys E k0 k1 alpha beta ->
  exists k0' k1', same_checks E true (length beta) (length alpha) k0 k0' /\ same_checks E false (length beta) (length alpha) k1 k1' /\
    wf_key (length alpha) k0' /\ wf_key (length alpha) k1' /\
    forall l, 2 <= l <= length alpha -> value_at E (length beta) k0' k1' (firstn l alpha) = beta ++ [c l].
Proof.
  intros Hok Hk. destruct (Nat.eq_dec (length alpha) 0) as [H0|H0].
  - exists k0, k1. destruct (honest_wf E Hok k0 k1 alpha beta (honest_keys_pair _ _ _ _ _ Hok Hk)) as [A B].
    split; [repeat split; reflexivity|]. split; [repeat split; reflexivity|]. split; [exact A|]. split; [exact B|]. intros l Hl. lia.
  - destruct (forge_any E k0 k1 alpha beta (counters beta c) Hok Hk ltac:(lia)) as (k0' & k1' & A & B & C & D & Hv).
    + intros l. unfold counters. destruct (l =? 1); rewrite app_length; reflexivity.
    + reflexivity.
    + intros l _. unfold counters. destruct (l =? 1); apply firstn_base.
    + exists k0', k1'. repeat (split; [assumption|]). intros l Hl. assert (Hlen : length (firstn l alpha) = l) by (rewrite firstn_length; lia).
      rewrite Hv; [|intros Hn; rewrite Hn in Hlen; cbn in Hlen; lia|lia]. rewrite Hlen.
      rewrite prefix_firstn. unfold counters. rewrite (proj2 (Nat.eqb_neq l 1)) by lia. reflexivity.
Qed.

(** the value at the last level is [v], all others the honest ones *)
Definition last_value (bits : nat) (beta v : list fld) (l : nat) : list fld := if l =? bits then v else beta ++ [of_Z 1].
Lemma forge_last E k0 k1 alpha beta v :
  env_ok E -> honest_keys E k0 k1 alpha beta -> 2 <= length alpha -> length v = length beta + 1 ->
  exists k0' k1', same_checks E true (length beta) (length alpha) k0 k0' /\ same_checks E false (length beta) (length alpha) k1 k1' /\
    wf_key (length alpha) k0' /\ wf_key (length alpha) k1' /\
    value_at E (length beta) k0' k1' alpha = v /\
    forall p, p <> [] -> length p <= length alpha -> p <> alpha ->
      value_at E (length beta) k0' k1' p = if is_prefix p alpha then beta ++ [of_Z 1] else repeat (of_Z 0) (length beta + 1).
Proof.
  intros Hok Hk Hb Hv. destruct (forge_any E k0 k1 alpha beta (last_value (length alpha) beta v) Hok Hk ltac:(lia)) as (k0' & k1' & A & B & C & D & H).
  - intros l. unfold last_value. destruct (l =? _); [exact Hv|rewrite app_length; reflexivity].
  - unfold last_value. rewrite (proj2 (Nat.eqb_neq 1 _)) by lia. reflexivity.
  - intros l Hl. unfold last_value. rewrite (proj2 (Nat.eqb_neq l _)) by lia. apply firstn_base.
  - exists k0', k1'. repeat (split; [assumption|]). split.
    + rewrite H; [|intros Hn; rewrite Hn in Hb; cbn in Hb; lia|lia]. rewrite <- (firstn_all alpha) at 1. rewrite prefix_firstn.
      unfold last_value. rewrite Nat.eqb_refl. reflexivity.
    + intros p Hp Hl Hne. rewrite (H p Hp Hl). destruct (is_prefix p alpha) eqn:Hpre; [|reflexivity]. unfold last_value.
      destruct (Nat.eqb_spec (length p) (length alpha)) as [He|He]; [|reflexivity]. exfalso. apply Hne. apply is_prefix_firstn in Hpre. destruct Hpre as [Hpre _]. rewrite He, firstn_all in Hpre. congruence.
Qed.

(** reports with these keys get the same verdict from the FLP check *)
Lemma same_verdict E len bits k0 k0' k1 k1' vk n0 p0 j0 n1 p1 j1 flag :
  same_checks E true len bits k0 k0' -> same_checks E false len bits k1 k1' ->
  report_verdict E len vk (RSMastic n0 k0 p0 j0) (RSMastic n1 k1 p1 j1) flag -> report_verdict E len vk (RSMastic n0 k0' p0 j0) (RSMastic n1 k1' p1 j1) flag.
Proof. intros (A & _) (B & _). unfold report_verdict. rewrite A, B. auto. Qed.
