(** Two aggregators side by side: well-formed keys never panic, honest keys agree. *)
From Verif Require Import Base BaseFacts Field Util UtilFacts Env Prg PrgFacts PrgSpecFacts2 Vidpf SpecVidpf SpecTree VidpfFacts VidpfEvalFacts VidpfTreeFacts VidpfTreeFacts3 VidpfTreeFacts4
  Merkle Collect Server Driver SpecCollect SpecServer SpecCheck SpecLevel CollectFacts CollectInv ServerFacts DriverFacts RefuteFacts LevelFacts.

Section Pair.
Variable E : env.
Hypothesis Hok : env_ok E.

Lemma eval_bit_total k len st d bs : key_typed k -> length (es_seed st) = 16 -> es_level st < length (cor_words k) -> es_level st < length (cs k) ->
  exists st' w, eval_bit E k st d bs len = Ret (st', w).
Proof.
  intros (_ & Hcw & _) Hs H1 H2. destruct (nth_error (cor_words k) (es_level st)) as [cw|] eqn:Hw; [|apply nth_error_None in Hw; lia].
  destruct (nth_error (cs k) (es_level st)) as [c|] eqn:Hc; [|apply nth_error_None in Hc; lia].
  rewrite (eval_bit_spec E Hok k st d bs len cw c Hs); [eauto| |intros _; exact Hc].
  intros _. split; [exact Hw|]. apply Hcw. eapply nth_error_In; exact Hw.
Qed.

(** a key that can be evaluated to depth D without panic *)
Definition wf_key (D : nat) (k : vidpf_key) : Prop := key_typed k /\ D <= length (cor_words k) /\ D <= length (cs k).
Lemma wf_evaluable D k len : wf_key D k -> evaluable E k len D.
Proof.
  intros (Hty & Hw & Hc) q. induction q as [|d q IH] using rev_ind; intros Hq; [exists (eval_init k), None; constructor|].
  rewrite app_length in Hq. cbn in Hq. destruct IH as (st & w & He); [lia|].
  destruct (evals_typed E Hok k len Hty _ _ _ He) as [[Hs _] _]. pose proof (evals_level _ _ _ _ _ _ He) as Hl.
  destruct (eval_bit_total k len st d (bits_to_bitstring (q ++ [d])) Hty Hs) as (st' & w' & Hb); [lia|lia|].
  exists st', (Some w'). eapply ev_snoc; eassumption.
Qed.

Definition wf_share (D : nat) (r : report_share) : Prop := exists nonce k proof jr, r = RSMastic nonce k proof jr /\ wf_key D k.
Lemma wf_defined D len (reps : list (bool * report_share)) p : Forall (wf_share D) (map snd reps) -> length p <= D -> defined_at E len reps p.
Proof.
  intros Hw Hp h r Hin. rewrite Forall_forall in Hw. destruct (Hw r (in_map snd _ _ Hin)) as (nonce & k & proof & jr & -> & Hk).
  destruct (wf_evaluable _ _ len Hk p Hp) as (st & w & He). exists st, w. split; [reflexivity|exact He].
Qed.

Section Honest.
Variables (k0 k1 : vidpf_key) (alpha : list bool) (beta : list fld).
Hypothesis Hh : honest_pair E k0 k1 alpha beta.
Notation len := (length beta).

Lemma honest_wf : wf_key (length alpha) k0 /\ wf_key (length alpha) k1.
Proof.
  destruct (honest_typed _ _ _ _ _ Hok Hh) as [H0 H1]. destruct (honest_lengths _ Hok _ _ _ _ Hh) as (Hw & Hc & _).
  assert (Hw1 : cor_words k1 = cor_words k0) by apply Hh. assert (Hc1 : cs k1 = cs k0) by apply Hh.
  split; (split; [assumption|]); rewrite ?Hw1, ?Hc1; lia.
Qed.

Lemma honest_at q : q <> [] -> length q <= length alpha ->
  proof_at E k0 len q = proof_at E k1 len q /\ vec_add (word_at E k0 len q) (word_at E k1 len q) = point_value alpha beta q /\
  length (word_at E k0 len q) = len + 1 /\ length (word_at E k1 len q) = len + 1.
Proof.
  intros Hne Hq. destruct honest_wf as [Hw0 Hw1].
  destruct (wf_evaluable _ _ len Hw0 q Hq) as (s0 & w0 & He0). destruct (wf_evaluable _ _ len Hw1 q Hq) as (s1 & w1 & He1).
  destruct w0 as [w0|]; [|inversion He0; subst; contradiction]. destruct w1 as [w1|]; [|inversion He1; subst; contradiction].
  rewrite (evals_proof_at _ _ _ _ _ _ He0), (evals_proof_at _ _ _ _ _ _ He1).
  rewrite (proj2 (evals_at _ _ _ _ _ _ He0)), (proj2 (evals_at _ _ _ _ _ _ He1)).
  apply (honest_evals E Hok k0 k1 alpha beta Hh q _ _ _ _ Hq He0 He1).
Qed.

(** component j of the shares of an honest key *)
Lemma honest_comp q j : q <> [] -> length q <= length alpha -> j <= len ->
  fadd (nth j (word_at E k0 len q) (of_Z 0)) (nth j (word_at E k1 len q) (of_Z 0)) = nth j (point_value alpha beta q) (of_Z 0).
Proof. intros Hne Hq Hj. destruct (honest_at q Hne Hq) as (_ & <- & Hl & _). symmetry. apply vec_add_get. lia. Qed.

Lemma point_split_comp q j : length q < length alpha -> j <= len ->
  fadd (nth j (point_value alpha beta (q ++ [false])) (of_Z 0)) (nth j (point_value alpha beta (q ++ [true])) (of_Z 0)) = nth j (point_value alpha beta q) (of_Z 0).
Proof. intros Hq Hj. rewrite <- (point_split alpha beta q Hq). symmetry. apply vec_add_get. rewrite point_value_length. lia. Qed.

Lemma check_at_nth first level y y0 y1 j : j <= len ->
  nth j (check_at first len level y y0 y1) (of_Z 0) =
  (let parent := if level =? 0 then repeat (of_Z 1) (len + 1) else y in
   if first then fsub (fsub (nth j parent (of_Z 0)) (nth j y0 (of_Z 0))) (nth j y1 (of_Z 0))
   else if level =? 0 then fadd (nth j y0 (of_Z 0)) (nth j y1 (of_Z 0))
   else fsub (fadd (nth j y0 (of_Z 0)) (nth j y1 (of_Z 0))) (nth j parent (of_Z 0))).
Proof.
  intros Hj. unfold check_at. erewrite nth_map_in; [reflexivity|]. apply nth_error_seq. lia.
Qed.

Lemma fsub_shuffle a b c d e f : fadd c d = fadd (fadd a e) (fadd b f) -> fsub (fsub c a) b = fsub (fadd e f) d.
Proof.
  intros H. assert (Hc : c = fsub (fadd (fadd a e) (fadd b f)) d) by (rewrite <- H; ring). rewrite Hc. ring.
Qed.

Lemma honest_check level p : length p = level -> level < length alpha ->
  used level len (check_at true len level (word_at E k0 len p) (word_at E k0 len (p ++ [false])) (word_at E k0 len (p ++ [true]))) =
  used level len (check_at false len level (word_at E k1 len p) (word_at E k1 len (p ++ [false])) (word_at E k1 len (p ++ [true]))).
Proof.
  intros Hp Hl.
  assert (Hne : forall d, p ++ [d] <> [] /\ length (p ++ [d]) <= length alpha) by (intros d; split; [destruct p; discriminate|rewrite app_length; cbn; lia]).
  assert (Hsum : forall j, j <= len ->
    fadd (fadd (nth j (word_at E k0 len (p ++ [false])) (of_Z 0)) (nth j (word_at E k1 len (p ++ [false])) (of_Z 0)))
         (fadd (nth j (word_at E k0 len (p ++ [true])) (of_Z 0)) (nth j (word_at E k1 len (p ++ [true])) (of_Z 0))) = nth j (point_value alpha beta p) (of_Z 0)).
  { intros j Hj. rewrite !honest_comp by (try apply Hne; exact Hj). apply point_split_comp; [lia|exact Hj]. }
  unfold used. destruct (level =? 0) eqn:H0.
  - f_equal. rewrite !check_at_nth by lia. rewrite H0. cbv zeta. rewrite repeat_get by lia.
    specialize (Hsum len (le_n _)). apply Nat.eqb_eq in H0. destruct p; [|cbn in Hp; lia].
    replace (nth len (point_value alpha beta []) (of_Z 0)) with (of_Z 1) in Hsum.
    2:{ unfold point_value. cbn [is_prefix]. rewrite app_nth2, Nat.sub_diag by lia. reflexivity. }
    set (a := nth len (word_at E k0 len ([] ++ [false])) (of_Z 0)) in *. set (b := nth len (word_at E k0 len ([] ++ [true])) (of_Z 0)) in *.
    rewrite <- Hsum. ring.
  - apply (nth_ext _ _ (of_Z 0) (of_Z 0)); [rewrite !firstn_length, !check_at_length; reflexivity|].
    intros j Hj. rewrite firstn_length, check_at_length in Hj.
    assert (Hf : forall l : list fld, nth j (firstn len l) (of_Z 0) = nth j l (of_Z 0)).
    { intros l. rewrite <- (firstn_skipn len l) at 2. destruct (Nat.lt_ge_cases j (length (firstn len l))) as [Hlt|Hge]; [rewrite app_nth1 by exact Hlt; reflexivity|].
      rewrite firstn_length in Hge. rewrite !nth_overflow; [reflexivity|rewrite firstn_skipn; lia|rewrite firstn_length; lia]. }
    rewrite !Hf, !check_at_nth by lia. rewrite H0. cbv zeta. apply fsub_shuffle. rewrite Hsum by lia. apply honest_comp; [|lia|lia].
    intros ->. cbn in Hp. subst level. discriminate.
Qed.

Lemma honest_proofs_xor paths : (forall q, In q paths -> q <> [] /\ length q <= length alpha) ->
  proofs_xor E len paths k0 = proofs_xor E len paths k1.
Proof.
  intros Hp. unfold proofs_xor. generalize (repeat 0%N 16). induction paths as [|q paths IH]; intros acc; [reflexivity|]. cbn [fold_left].
  destruct (Hp q (or_introl eq_refl)) as [Hne Hl]. rewrite (proj1 (honest_at q Hne Hl)). apply IH. intros q' Hq'. apply Hp. right. exact Hq'.
Qed.
Lemma honest_strings level paths : (forall p, In p paths -> length p = level) -> level < length alpha ->
  verification_string E true len level paths k0 = verification_string E false len level paths k1.
Proof.
  intros Hp Hl. unfold verification_string. f_equal.
  - apply honest_proofs_xor. intros q Hq. apply children_in in Hq. destruct Hq as (p & d & Hin & ->). split; [destruct p; discriminate|].
    rewrite app_length, (Hp _ Hin). cbn. lia.
  - do 2 f_equal. unfold check_string_of. do 4 f_equal. apply map_ext_in. intros p Hin. apply honest_check; [apply Hp; exact Hin|exact Hl].
Qed.
End Honest.
End Pair.
