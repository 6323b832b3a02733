(** Proofs for C67 and C68. *)
From Verif Require Import Base BaseFacts Field Util Env Prg Vidpf Merkle Collect Server Driver SpecVidpf SpecTree SpecCollect SpecLevel SpecWhh
  WhhFacts WhhFacts2 FlpFacts WhhFacts3 WhhMain SpecOrder.
From Coq Require Import Lia Permutation.

Lemma filter_perm {A} (f : A -> bool) l l' : Permutation l l' -> Permutation (filter f l) (filter f l').
Proof.
  induction 1 as [|x l l' _ IH|x y l|l l' l'' _ IH1 _ IH2]; cbn [filter].
  - constructor.
  - destruct (f x); [constructor|]; exact IH.
  - destruct (f x), (f y); try apply perm_swap; apply Permutation_refl.
  - eapply Permutation_trans; eassumption.
Qed.
Lemma fsum_perm l l' : Permutation l l' -> fsum l = fsum l'.
Proof. induction 1; cbn [fsum]; try congruence; ring. Qed.
Lemma count_perm L L' p : Permutation L L' -> count L p = count L' p.
Proof. intros H. unfold count. rewrite (Permutation_length (filter_perm _ _ _ H : Permutation (supporters L p) (supporters L' p))). reflexivity. Qed.
Lemma weight_perm L L' p j : Permutation L L' -> weight L p j = weight L' p j.
Proof. intros H. unfold weight. apply fsum_perm, Permutation_map, filter_perm, H. Qed.
Lemma heavy_perm thr L L' p : Permutation L L' -> heavy thr L p = heavy thr L' p.
Proof. intros H. unfold heavy. rewrite (count_perm _ _ _ H). reflexivity. Qed.
Lemma result_perm L L' len p : Permutation L L' -> exact_result L len p = exact_result L' len p.
Proof. intros H. unfold exact_result. rewrite (count_perm _ _ _ H). f_equal. f_equal. apply map_ext. intros j. apply weight_perm, H. Qed.
Lemma existsb_perm {A} (f : A -> bool) l l' : Permutation l l' -> existsb f l = existsb f l'.
Proof. induction 1; cbn [existsb]; try congruence. rewrite !orb_assoc. f_equal. apply orb_comm. Qed.
Lemma forallb_perm {A} (f : A -> bool) l l' : Permutation l l' -> forallb f l = forallb f l'.
Proof. induction 1; cbn [forallb]; try congruence. rewrite !andb_assoc. f_equal. apply andb_comm. Qed.

(** the visible outcome of a run as a function of the entries *)
Definition expected (thr : Z) (len bits : nat) (L : list entry) : outcome (list result) :=
  if forallb (fun l => existsb (heavy thr L) (all_paths l)) (seq 1 (bits - 2)) then Ret (map (exact_result L len) (filter (heavy thr L) (all_paths bits))) else Panic PIndex.
Lemma expected_perm thr len bits L L' : Permutation L L' -> expected thr len bits L = expected thr len bits L'.
Proof.
  intros H. unfold expected.
  assert (Hh : forall p, heavy thr L p = heavy thr L' p) by (intros p; apply heavy_perm, H).
  assert (He : forall ps, existsb (heavy thr L) ps = existsb (heavy thr L') ps) by (induction ps as [|p ps IH]; [reflexivity|]; cbn [existsb]; rewrite Hh, IH; reflexivity).
  assert (Hs : forall ls, forallb (fun l => existsb (heavy thr L) (all_paths l)) ls = forallb (fun l => existsb (heavy thr L') (all_paths l)) ls).
  { induction ls as [|l ls IH]; [reflexivity|]. cbn [forallb]. rewrite He, IH. reflexivity. }
  rewrite Hs, (filter_ext _ _ Hh). rewrite (map_ext _ (exact_result L' len)) by (intros p; apply result_perm, H). reflexivity.
Qed.
Lemma run_expected E len bits L vk fuel cfg s0 s1 :
  env_ok E -> Forall (good_entry E len bits) L -> (Z.of_nat (length L) < 2 ^ 64)%Z ->
  cfg_hist cfg = len -> cfg_bits cfg = Some bits -> 0 < cfg_query_batch cfg -> 1 <= bits -> length L <= fuel ->
  uploaded true len bits vk (map e_r0 L) s0 -> uploaded false len bits vk (map e_r1 L) s1 ->
  (2 <= bits -> existsb e_ok L = true /\ Forall (fun e => report_verdict E len vk (e_r0 e) (e_r1 e) (e_ok e)) L) ->
  (bits = 1 -> forallb e_ok L = true) ->
  visible (run_whh fuel E cfg s0 s1 (length L)) = expected (threshold cfg) len bits L.
Proof.
  intros Hok Hg Hn Hcfg Hcb Hq Hb Hf U0 U1 H2 H1. unfold expected.
  destruct (forallb (fun l => existsb (heavy (threshold cfg) L) (all_paths l)) (seq 1 (bits - 2))) eqn:Hall.
  - destruct (run_whh_any E len bits L vk fuel cfg s0 s1) as (t0 & t1 & Hr); try assumption; [|rewrite Hr; reflexivity].
    intros l Hl1 Hl2. rewrite forallb_forall in Hall. specialize (Hall l ltac:(apply in_seq; lia)). apply existsb_exists in Hall.
    destruct Hall as (p & Hp & Hh). exists p. split; [apply all_paths_length; exact Hp|exact Hh].
  - assert (Hl : exists l, In l (seq 1 (bits - 2)) /\ existsb (heavy (threshold cfg) L) (all_paths l) = false).
    { clear -Hall. induction (seq 1 (bits - 2)) as [|l ls IH]; [discriminate|]. cbn [forallb] in Hall. destruct (existsb (heavy (threshold cfg) L) (all_paths l)) eqn:He.
      - destruct (IH Hall) as (x & Hx & Hf). exists x. split; [right; exact Hx|exact Hf].
      - exists l. split; [left; reflexivity|exact He]. }
    destruct Hl as (l & Hl & He). apply in_seq in Hl. destruct H2 as [Hex Hver]; [lia|].
    rewrite (run_whh_empty E Hok len bits L vk Hg Hn cfg Hcfg Hq fuel s0 s1 l U0 U1 Hcb Hf Hex Hver); [reflexivity|lia|lia|].
    intros p Hp. destruct (heavy (threshold cfg) L p) eqn:Hh; [|reflexivity]. rewrite <- He. symmetry. apply existsb_exists. exists p. split; [apply all_paths_length; exact Hp|exact Hh].
Qed.

Lemma order_lemma E len bits L L' vk fuel fuel' cfg cfg' s0 s1 s0' s1' :
  env_ok E -> Permutation L L' -> Forall (good_entry E len bits) L -> (Z.of_nat (length L) < 2 ^ 64)%Z ->
  cfg_hist cfg = len -> cfg_bits cfg = Some bits -> 0 < cfg_query_batch cfg -> 1 <= bits -> length L <= fuel ->
  cfg_hist cfg' = len -> cfg_bits cfg' = Some bits -> 0 < cfg_query_batch cfg' -> length L <= fuel' -> cfg_thr cfg' = cfg_thr cfg ->
  uploaded true len bits vk (map e_r0 L) s0 -> uploaded false len bits vk (map e_r1 L) s1 ->
  uploaded true len bits vk (map e_r0 L') s0' -> uploaded false len bits vk (map e_r1 L') s1' ->
  (2 <= bits -> existsb e_ok L = true /\ Forall (fun e => report_verdict E len vk (e_r0 e) (e_r1 e) (e_ok e)) L) ->
  (bits = 1 -> forallb e_ok L = true) ->
  visible (run_whh fuel E cfg s0 s1 (length L)) = visible (run_whh fuel' E cfg' s0' s1' (length L')).
Proof.
  intros Hok HP Hg Hn A1 A2 A3 Hb A4 B1 B2 B3 B4 Ht U0 U1 U0' U1' H2 H1. pose proof (Permutation_length HP) as Hlen.
  rewrite (run_expected E len bits L vk fuel cfg s0 s1) by assumption.
  rewrite (run_expected E len bits L' vk fuel' cfg' s0' s1'); try assumption; try lia.
  - unfold threshold. rewrite Ht. apply expected_perm, HP.
  - apply Forall_forall. intros x Hx. rewrite Forall_forall in Hg. apply Hg. eapply Permutation_in; [apply Permutation_sym; exact HP|exact Hx].
  - intros Hb2. destruct (H2 Hb2) as [Hx Hv]. split; [rewrite <- (existsb_perm _ _ _ HP); exact Hx|].
    apply Forall_forall. intros x Hx'. rewrite Forall_forall in Hv. apply Hv. eapply Permutation_in; [apply Permutation_sym; exact HP|exact Hx'].
  - intros Hb1. rewrite <- (forallb_perm _ _ _ HP). apply H1, Hb1.
Qed.

(** *** repeated uploads *)
Lemma copies_length {A} m (x : A) : length (copies m x) = m.
Proof. induction m; cbn; congruence. Qed.
Lemma copies_in {A} m (x y : A) : In y (copies m x) -> y = x.
Proof. induction m; [intros []|]. intros [<-|H]; auto. Qed.
Lemma supporters_app L L' p : supporters (L ++ L') p = supporters L p ++ supporters L' p.
Proof. unfold supporters. induction L as [|x L IH]; [reflexivity|]. cbn [app filter]. rewrite IH. destruct (e_ok x && is_prefix p (e_alpha x)); reflexivity. Qed.
Lemma supporters_copies m e p : supporters (copies m e) p = if e_ok e && is_prefix p (e_alpha e) then copies m e else [].
Proof. unfold supporters. induction m as [|m IH]; [destruct (_ && _); reflexivity|]. cbn [copies filter]. rewrite IH. destruct (e_ok e && is_prefix p (e_alpha e)); reflexivity. Qed.
Lemma count_copies L m e p : e_ok e = true -> count (L ++ copies m e) p = (count L p + if is_prefix p (e_alpha e) then Z.of_nat m else 0)%Z.
Proof.
  intros He. unfold count. rewrite supporters_app, app_length, Nat2Z.inj_add, supporters_copies, He. cbn [andb].
  destruct (is_prefix p (e_alpha e)); [rewrite copies_length|]; reflexivity.
Qed.
Lemma prefix_firstn l (a : list bool) : is_prefix (firstn l a) a = true.
Proof. revert l. induction a as [|x a IH]; intros [|l]; try reflexivity. cbn. rewrite eqb_reflx. apply IH. Qed.
Lemma prefix_refl (a : list bool) : is_prefix a a = true.
Proof. rewrite <- (firstn_all a) at 1. apply prefix_firstn. Qed.

Lemma replay_lemma E len bits L e m vk fuel cfg s0 s1 :
  env_ok E -> Forall (good_entry E len bits) (e :: L) -> e_ok e = true ->
  Forall (fun e => report_verdict E len vk (e_r0 e) (e_r1 e) (e_ok e)) (e :: L) ->
  (threshold cfg <= Z.of_nat m)%Z -> (Z.of_nat (length L + m) < 2 ^ 64)%Z ->
  cfg_hist cfg = len -> cfg_bits cfg = Some bits -> 0 < cfg_query_batch cfg -> 2 <= bits -> length L + m <= fuel ->
  uploaded true len bits vk (map e_r0 L ++ copies m (e_r0 e)) s0 -> uploaded false len bits vk (map e_r1 L ++ copies m (e_r1 e)) s1 ->
  exists t0 t1 rs w, run_whh fuel E cfg s0 s1 (length L + m) = Ret (t0, t1, rs) /\
    In {| res_path := e_alpha e; res_value := w ++ [of_Z (count L (e_alpha e) + Z.of_nat m)] |} rs /\ length w = len /\
    forall j, j < len -> nth_error w j = Some (fadd (weight L (e_alpha e) j) (fsum (copies m (nth j (e_beta e) (of_Z 0))))).
Proof.
  intros Hok Hg He Hv Hm Hn C1 C2 C3 Hb Hf U0 U1.
  assert (Hge : good_entry E len bits e) by (inversion Hg; assumption).
  destruct Hge as (W0 & W1 & Hge). destruct (Hge He) as (K1 & K2 & K3).
  assert (Hmap : forall (A : Type) (r : entry -> A), map r (L ++ copies m e) = map r L ++ copies m (r e)).
  { intros A r. rewrite map_app. f_equal. clear. induction m as [|m IH]; [reflexivity|]. cbn. rewrite IH. reflexivity. }
  assert (Hm1 : 1 <= m) by (unfold threshold in Hm; lia).
  assert (Hl : length (L ++ copies m e) = length L + m) by (rewrite app_length, copies_length; reflexivity).
  destruct (run_whh_any E len bits (L ++ copies m e) vk fuel cfg s0 s1) as (t0 & t1 & Hr); try assumption; try (rewrite Hl; assumption); try lia.
  - apply Forall_app. split; [inversion Hg; assumption|]. apply Forall_forall. intros x Hx. apply copies_in in Hx. subst x. inversion Hg; assumption.
  - rewrite Hmap. exact U0.
  - rewrite Hmap. exact U1.
  - intros _. split.
    + apply existsb_exists. exists e. split; [|exact He]. apply in_or_app. right. destruct m; [lia|]. left. reflexivity.
    + apply Forall_app. split; [inversion Hv; assumption|]. apply Forall_forall. intros x Hx. apply copies_in in Hx. subst x. inversion Hv; assumption.
  - intros l Hl1 Hl2. exists (firstn l (e_alpha e)). split; [apply firstn_length_le; lia|]. unfold heavy. rewrite count_copies, prefix_firstn by exact He.
    apply Z.leb_le. unfold count. lia.
  - rewrite Hl in Hr. eexists t0, t1, _, (map (weight (L ++ copies m e) (e_alpha e)) (seq 0 len)). split; [exact Hr|]. split; [|split].
    + apply in_map_iff. exists (e_alpha e). split.
      * unfold exact_result. rewrite count_copies, prefix_refl by exact He. reflexivity.
      * apply filter_In. split; [apply all_paths_length; exact K2|]. unfold heavy. rewrite count_copies, prefix_refl by exact He. apply Z.leb_le. unfold count. lia.
    + rewrite map_length, seq_length. reflexivity.
    + intros j Hj. rewrite nth_error_map, (nth_error_nth' _ 0) by (rewrite seq_length; exact Hj). rewrite seq_nth by exact Hj. cbn [option_map Nat.add]. f_equal.
      unfold weight. rewrite supporters_app, supporters_copies, He, prefix_refl. cbn [andb]. rewrite map_app. clear.
      assert (Hs : forall a b, fsum (a ++ b) = fadd (fsum a) (fsum b)). { induction a as [|x a IH]; intros b; cbn [fsum app]; [change (of_Z 0) with fzero; ring|]. rewrite IH. ring. }
      rewrite Hs. f_equal. f_equal. induction m as [|m IH]; [reflexivity|]. cbn. rewrite IH. reflexivity.
Qed.

(** *** a higher threshold *)
Definition total_of (r : result) : Z := fval (last (res_value r) (of_Z 0)).
Lemma total_exact L len p : (Z.of_nat (length L) < 2 ^ 64)%Z -> total_of (exact_result L len p) = count L p.
Proof.
  intros Hn. unfold total_of, exact_result. cbn [res_value]. rewrite last_last. apply (fval_count L Hn).
Qed.
Lemma filter_map_exact thr L len ps : (Z.of_nat (length L) < 2 ^ 64)%Z ->
  filter (fun r => (thr <=? total_of r)%Z) (map (exact_result L len) ps) = map (exact_result L len) (filter (heavy thr L) ps).
Proof.
  intros Hn. induction ps as [|p ps IH]; [reflexivity|]. cbn [map filter]. rewrite total_exact by exact Hn. rewrite IH. unfold heavy. destruct (thr <=? count L p)%Z; reflexivity.
Qed.
Lemma threshold_lemma E len bits L vk fuel fuel' cfg cfg' s0 s1 s0' s1' t0 t1 rs t0' t1' rs' :
  env_ok E -> Forall (good_entry E len bits) L -> (Z.of_nat (length L) < 2 ^ 64)%Z ->
  cfg_hist cfg = len -> cfg_bits cfg = Some bits -> 0 < cfg_query_batch cfg -> 1 <= bits -> length L <= fuel ->
  cfg_hist cfg' = len -> cfg_bits cfg' = Some bits -> 0 < cfg_query_batch cfg' -> length L <= fuel' -> (threshold cfg <= threshold cfg')%Z ->
  uploaded true len bits vk (map e_r0 L) s0 -> uploaded false len bits vk (map e_r1 L) s1 ->
  uploaded true len bits vk (map e_r0 L) s0' -> uploaded false len bits vk (map e_r1 L) s1' ->
  (2 <= bits -> existsb e_ok L = true /\ Forall (fun e => report_verdict E len vk (e_r0 e) (e_r1 e) (e_ok e)) L) ->
  (bits = 1 -> forallb e_ok L = true) ->
  run_whh fuel E cfg s0 s1 (length L) = Ret (t0, t1, rs) -> run_whh fuel' E cfg' s0' s1' (length L) = Ret (t0', t1', rs') ->
  rs' = filter (fun r => (threshold cfg' <=? fval (last (res_value r) (of_Z 0)))%Z) rs.
Proof.
  intros Hok Hg Hn A1 A2 A3 Hb A4 B1 B2 B3 B4 Ht U0 U1 U0' U1' H2 H1 Hr Hr'.
  pose proof (run_expected E len bits L vk fuel cfg s0 s1 Hok Hg Hn A1 A2 A3 Hb A4 U0 U1 H2 H1) as X. rewrite Hr in X.
  pose proof (run_expected E len bits L vk fuel' cfg' s0' s1' Hok Hg Hn B1 B2 B3 Hb B4 U0' U1' H2 H1) as X'. rewrite Hr' in X'.
  unfold expected in X, X'. cbn [visible] in X, X'.
  destruct (forallb _ _) in X; [|discriminate]. destruct (forallb _ _) in X'; [|discriminate]. injection X as ->. injection X' as ->.
  change (filter _ (map (exact_result L len) (filter (heavy (threshold cfg) L) (all_paths bits)))) with
    (filter (fun r => (threshold cfg' <=? total_of r)%Z) (map (exact_result L len) (filter (heavy (threshold cfg) L) (all_paths bits)))).
  rewrite filter_map_exact by exact Hn. f_equal. generalize (all_paths bits). intros ps. clear -Ht. induction ps as [|p ps IH]; [reflexivity|]. cbn [filter].
  destruct (heavy (threshold cfg) L p) eqn:Hp; cbn [filter]; rewrite IH; [reflexivity|].
  destruct (heavy (threshold cfg') L p) eqn:Hp'; [|reflexivity]. unfold heavy in Hp, Hp'. apply Z.leb_le in Hp'. apply Z.leb_gt in Hp. lia.
Qed.
