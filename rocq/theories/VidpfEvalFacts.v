(** Proofs about eval_loop and eval on honest key pairs (C01, C02, C03, C09, C10). *)
From Verif Require Import Base BaseFacts Field Util UtilFacts Env Prg PrgFacts Vidpf SpecPrg SpecVidpf VidpfFacts.

Lemma firstn_removelast_snoc {A} (p : list A) d : firstn (length (p ++ [d]) - 1) (p ++ [d]) = p.
Proof.
  rewrite app_length. cbn [length]. replace (length p + 1 - 1) with (length p + 0) by lia.
  rewrite firstn_app_2. cbn [firstn]. apply app_nil_r.
Qed.
Lemma nth_snoc {A} (p : list A) d : nth_error (p ++ [d]) (length (p ++ [d]) - 1) = Some d.
Proof.
  rewrite app_length. cbn [length]. rewrite nth_error_app2 by lia.
  replace (length p + 1 - 1 - length p) with 0 by lia. reflexivity.
Qed.
Lemma snoc_cases {A} (l : list A) : l = [] \/ exists p d, l = p ++ [d].
Proof. destruct l as [|x l]; [left; reflexivity|right]. destruct (@exists_last A (x :: l)) as (p & d & ->); [discriminate|eauto]. Qed.

Section WithEnv.
Variable E : env.
Hypothesis Hok : env_ok E.
Variables (k0 k1 : vidpf_key) (alpha : list bool) (beta : list fld).
Hypothesis Hh : honest_pair E k0 k1 alpha beta.
Notation vr := (vrel E k0 alpha beta).

Lemma eval_loop_honest idx : forall p st0 st1,
  vr p st0 st1 -> length p + length idx <= length alpha ->
  exists st0' out0 st1' out1,
    eval_loop E k0 st0 (bits_to_bitstring p) idx (length beta) = Ret (st0', bits_to_bitstring (p ++ idx), out0) /\
    eval_loop E k1 st1 (bits_to_bitstring p) idx (length beta) = Ret (st1', bits_to_bitstring (p ++ idx), out1) /\
    vr (p ++ idx) st0' st1' /\ length out0 = length idx /\ length out1 = length idx /\
    forall i w0 w1, nth_error out0 i = Some w0 -> nth_error out1 i = Some w1 ->
      shares_of w0 w1 (point_value alpha beta (p ++ firstn (i + 1) idx)).
Proof.
  induction idx as [|d idx IH]; intros p st0 st1 Hv Hl; cbn [eval_loop].
  - exists st0, [], st1, []. rewrite app_nil_r. split; [reflexivity|]. split; [reflexivity|]. split; [exact Hv|]. split; [reflexivity|]. split; [reflexivity|].
    intros [|i]; discriminate.
  - cbn [length] in Hl.
    destruct (vstep E Hok k0 k1 alpha beta p st0 st1 d (bits_to_bitstring p ++ [bit_char d]) (bits_to_bitstring p ++ [bit_char d]) Hh Hv)
      as (st0' & w0 & st1' & w1 & -> & -> & Hw0 & Hw1 & Hsum & Hv'); [lia|].
    rewrite <- bits_snoc in *. specialize (Hv' eq_refl eq_refl). cbn [bind].
    destruct (IH (p ++ [d]) st0' st1' Hv') as (a0 & o0 & a1 & o1 & -> & -> & Hv2 & Ho0 & Ho1 & Hsh).
    { rewrite app_length. cbn [length]. lia. }
    cbn [bind]. rewrite <- app_assoc in *. cbn [app] in *.
    exists a0, (w0 :: o0), a1, (w1 :: o1).
    split; [reflexivity|]. split; [reflexivity|]. split; [exact Hv2|].
    split; [cbn; lia|]. split; [cbn; lia|].
    intros [|i] x0 x1 Hx0 Hx1; cbn [nth_error] in *.
    + injection Hx0 as <-. injection Hx1 as <-. cbn [Nat.add firstn].
      apply shares_of_intro; [congruence|exact Hsum].
    + specialize (Hsh i x0 x1 Hx0 Hx1). rewrite <- app_assoc in Hsh. exact Hsh.
Qed.

Lemma eval_loop_honest_init idx : length idx <= length alpha ->
  exists st0 out0 st1 out1,
    eval_loop E k0 (eval_init k0) [] idx (length beta) = Ret (st0, bits_to_bitstring idx, out0) /\
    eval_loop E k1 (eval_init k1) [] idx (length beta) = Ret (st1, bits_to_bitstring idx, out1) /\
    vr idx st0 st1 /\ length out0 = length idx /\ length out1 = length idx /\
    forall i w0 w1, nth_error out0 i = Some w0 -> nth_error out1 i = Some w1 ->
      shares_of w0 w1 (point_value alpha beta (firstn (i + 1) idx)).
Proof.
  intros Hl. apply (eval_loop_honest idx [] (eval_init k0) (eval_init k1)); [|exact Hl].
  apply (vrel_init E k0 k1 alpha beta (repeat 0%N HASH_SIZE) Hh). apply repeat_length.
Qed.

Lemma eval_honest idx pi : 1 <= length idx <= length alpha -> length pi = 16 ->
  exists out0 lst0 out1 lst1 pi',
    eval E k0 idx pi (length beta) = Ret (out0, lst0, pi') /\
    eval E k1 idx pi (length beta) = Ret (out1, lst1, pi') /\
    length out0 = length idx - 1 /\ length out1 = length idx - 1 /\
    (forall i w0 w1, nth_error out0 i = Some w0 -> nth_error out1 i = Some w1 ->
      shares_of w0 w1 (point_value alpha beta (firstn (i + 1) idx))) /\
    shares_of lst0 lst1 (point_value alpha beta idx).
Proof.
  intros Hl Hpi. destruct (snoc_cases idx) as [->|(p & d & ->)]; [cbn in Hl; lia|].
  destruct (honest_lengths _ Hok _ _ _ _ Hh) as (Hlw & _).
  assert (Hcw : cor_words k1 = cor_words k0) by apply Hh.
  unfold eval, domain_size. rewrite Hcw, Hlw.
  rewrite !debug_assert_true by (rewrite ?negb_true_iff, ?Nat.leb_le, ?Nat.eqb_neq; lia). cbn [bind].
  rewrite firstn_removelast_snoc, nth_snoc. cbn [unwrap].
  rewrite app_length in Hl. cbn [length] in Hl.
  destruct (eval_loop_honest p [] _ _ (vrel_init E k0 k1 alpha beta pi Hh Hpi)) as (st0 & o0 & st1 & o1 & He0 & He1 & Hv & Ho0 & Ho1 & Hsh).
  { cbn [length]. lia. }
  cbn [bits_to_bitstring map app] in He0, He1, Hsh, Hv. rewrite He0, He1. cbn [bind].
  destruct (vstep E Hok k0 k1 alpha beta p st0 st1 d (bits_to_bitstring p) (bits_to_bitstring p) Hh Hv)
    as (st0' & w0 & st1' & w1 & Hb0 & Hb1 & Hw0 & Hw1 & Hsum & _); [lia|].
  unfold bits_to_bitstring in Hb0, Hb1. rewrite Hb0, Hb1. cbn [bind].
  destruct Hv as (_ & _ & Hpf & _). rewrite Hpf.
  exists o0, w0, o1, w1, (es_proof st1). rewrite app_length. cbn [length].
  split; [reflexivity|]. split; [reflexivity|]. split; [lia|]. split; [lia|]. split.
  - intros i x0 x1 Hx0 Hx1. specialize (Hsh i x0 x1 Hx0 Hx1).
    assert (i < length o0) by (apply nth_error_Some; congruence).
    rewrite firstn_app. replace (i + 1 - length p) with 0 by lia. cbn [firstn]. rewrite app_nil_r. exact Hsh.
  - apply shares_of_intro; [congruence|exact Hsum].
Qed.
End WithEnv.

(** the returned pi ignores the last bit, whatever the key *)
Lemma eval_pi_ignores_last E k p d d' pi len o l q o' l' q' :
  eval E k (p ++ [d]) pi len = Ret (o, l, q) -> eval E k (p ++ [d']) pi len = Ret (o', l', q') -> q = q' /\ o = o'.
Proof.
  unfold eval. rewrite !firstn_removelast_snoc, !nth_snoc. intros H H'.
  assert (Hlen : length (p ++ [d]) = length (p ++ [d'])) by (rewrite !app_length; reflexivity).
  bret H as ? _. bret H as ? _. bret H as [[st bs] out] He. bret H' as ? _. bret H' as ? _. bret H' as [[st' bs'] out'] He'.
  rewrite He in He'. injection He' as <- <- <-.
  cbn [unwrap bind] in H, H'. bret H as [? ?] ?. bret H' as [? ?] ?.
  injection H as <- <- <-. injection H' as <- <- <-. auto.
Qed.
