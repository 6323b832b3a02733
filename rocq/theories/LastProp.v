(** Consequences of LastFacts for property C30. *)
From Verif Require Import Base BaseFacts Field Util Env Prg Vidpf SpecTree Merkle Collect Server Driver SpecCollect SpecServer SpecLevel SpecWhh SpecSearch SpecLast SearchMain LastFacts SearchProp.

Lemma remaining_all R : all_accepted R -> remaining R = R.
Proof. induction 1 as [|[h x] R Hx _ IH]; [reflexivity|]. cbn in Hx. subst h. unfold remaining in *. cbn [filter fst]. rewrite IH. reflexivity. Qed.
Lemma remaining_lt R x : In x R -> fst x = false -> length (remaining R) < length R.
Proof.
  intros Hin Hx. induction R as [|y R IH]; [destruct Hin|]. pose proof (SearchMain.remaining_le R) as Hle. unfold remaining in *. cbn [filter length].
  destruct Hin as [->|Hin]; [rewrite Hx; unfold pair in *; lia|]. specialize (IH Hin). destruct (fst y); cbn [length]; unfold pair in *; lia.
Qed.

Section C30.
Variables (E : env) (len bits level : nat) (paths : list (list bool)) (R : list pair) (s0 s1 : server) (fuel : nat) (cfg : config).
Hypothesis Hok : env_ok E.
Hypothesis Hs : level_start E len bits level paths R s0 s1.
Hypothesis Hcfg : cfg_hist cfg = len.
Hypothesis Hb : 0 < cfg_query_batch cfg.
Hypothesis Hfuel : length R <= fuel.
Notation b := (cfg_query_batch cfg).

Lemma last_all : all_accepted R ->
  exists t0 t1, run_level_last fuel E cfg s0 s1 (length R) =
    if forallb (proofs_agree E len paths) R then Ret (t0, t1, map (seen_result E len R) (survivors E len (threshold cfg) R paths)) else Panic PAssert.
Proof.
  intros Ha. destruct (last_exact E len bits level paths R s0 s1 fuel cfg Hok Hs Hcfg Hb Hfuel) as (t0 & t1 & H). exists t0, t1. rewrite H.
  rewrite (remaining_all R Ha). unfold compared. rewrite Nat.eqb_refl, firstn_all. reflexivity.
Qed.
Lemma last_some x : In x R -> fst x = false ->
  exists t0 t1, run_level_last fuel E cfg s0 s1 (length R) =
    if forallb (proofs_agree E len paths) (firstn (length (remaining R) / b * b) (remaining R))
    then Ret (t0, t1, map (seen_result E len R) (survivors E len (threshold cfg) R paths)) else Panic PAssert.
Proof.
  intros Hin Hx. destruct (last_exact E len bits level paths R s0 s1 fuel cfg Hok Hs Hcfg Hb Hfuel) as (t0 & t1 & H). exists t0, t1. rewrite H.
  unfold compared. rewrite (proj2 (Nat.eqb_neq _ _)) by (pose proof (remaining_lt R x Hin Hx); unfold pair in *; lia). reflexivity.
Qed.
Lemma last_few x : In x R -> fst x = false -> length (remaining R) < b ->
  exists t0 t1, run_level_last fuel E cfg s0 s1 (length R) = Ret (t0, t1, map (seen_result E len R) (survivors E len (threshold cfg) R paths)).
Proof.
  intros Hin Hx Hm. destruct (last_some x Hin Hx) as (t0 & t1 & H). exists t0, t1. rewrite H, Nat.div_small by exact Hm. reflexivity.
Qed.
End C30.
