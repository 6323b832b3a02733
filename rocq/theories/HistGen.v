(** Report generation with the proof system of Histogram.v. *)
From Verif Require Import Base BaseFacts Field Util UtilFacts Env Prg Vidpf VidpfFacts Collect Server Driver Histogram HistFacts HistSound HistRun SpecVidpf SpecHist FlpFacts.

Lemma generated E len cl : env_ok E -> length (cl_seed0 cl) = 16 -> length (cl_seed1 cl) = 16 ->
  ((exists r, gen_report (with_hist E) len cl = Ret r) <-> cl_bucket cl < len /\ length (cl_prove_rand cl) = flp_prove_rand_len (with_hist E) len) /\
  (forall k, gen_report (with_hist E) len cl = Panic k -> k = PUnwrap).
Proof.
  intros Hok S0 S1. unfold gen_report, encode_measurement.
  destruct (cl_bucket cl <? len) eqn:Hb.
  2:{ apply Nat.ltb_ge in Hb. cbn [unwrap bind]. split; [split; [intros (r & Hr); discriminate Hr|lia]|]. intros k Hk. injection Hk as <-. reflexivity. }
  apply Nat.ltb_lt in Hb. cbn [unwrap bind].
  destruct (gen_total (with_hist E) (with_hist_ok E Hok) (cl_seed0 cl) (cl_seed1 cl) (cl_alpha cl) (one_hot len (cl_bucket cl)) S0 S1) as (k0 & k1 & ->).
  cbn [bind].
  set (jr := xof_field (with_hist E) _ _ _ _).
  assert (Hjr : length jr = 2) by (destruct Hok as (_ & _ & _ & Hx & _); apply Hx).
  change (flp_prove (with_hist E)) with (hist_prove chunk). change (flp_prove_rand_len (with_hist E) len) with (2 * chunk).
  pose proof (prover_total chunk len (one_hot len (cl_bucket cl)) (cl_prove_rand cl) jr) as Ht.
  rewrite one_hot_length in Ht.
  destruct (hist_prove chunk len (one_hot len (cl_bucket cl)) (cl_prove_rand cl) jr) as [p|]; cbn [unwrap bind].
  - split; [|intros k Hk; discriminate Hk]. split; [|intros _; eexists; reflexivity].
    intros _. split; [exact Hb|]. apply Ht. exists p. reflexivity.
  - split.
    + split; [intros (r & Hr); discriminate Hr|]. intros [_ Hl]. exfalso. destruct (proj2 Ht (conj eq_refl (conj Hl Hjr))) as (p & Hp). discriminate Hp.
    + intros k Hk. injection Hk as <-. reflexivity.
Qed.
