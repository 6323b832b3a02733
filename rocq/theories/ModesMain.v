(** Complete runs of attribute-based metrics: the whole program with honest clients. *)
From Verif Require Import Base BaseFacts Field Util UtilFacts Env Prg PrgFacts PrgSpecFacts2 Vidpf SpecVidpf SpecTree VidpfFacts VidpfEvalFacts VidpfTreeFacts VidpfTreeFacts3 VidpfTreeFacts4 VidpfPropFacts2
  Merkle Collect Server Driver Modes SpecCollect SpecServer SpecDriver SpecMetrics SpecCheck SpecLevel SpecWhh SpecModes
  CollectFacts CollectInv ServerFacts DriverFacts DriverPropFacts MetricsFacts PmFacts RefuteFacts MerkleFacts LevelFacts PairFacts WhhFacts WhhFacts2 FlpFacts WhhFacts3 WhhMain HonestFacts ModesFacts.
From Coq Require Import Permutation.

Section AbmMain.
Variable E : env.
Hypothesis Hok : env_ok E.

Lemma beta_is_share len k l r a b : key_typed k -> share_at E k len [false] = Ret (l, a) -> share_at E k len [true] = Ret (r, b) ->
  firstn len (vec_add l r) = beta_share E len k.
Proof.
  intros Hty Hl Hr. unfold beta_share, word_at. rewrite Hl, Hr.
  assert (Hn : [false] <> []) by discriminate. destruct (share_at_evals _ _ _ _ _ _ Hn Hl) as (st & He & _). destruct (evals_typed E Hok k len Hty _ _ _ He) as [_ Hlen]. specialize (Hlen _ eq_refl).
  apply nth_seq_map with (d := of_Z 0); [|rewrite firstn_length, vec_add_length; lia].
  intros j Hj. rewrite <- (vec_add_nth_def l r j) by lia. rewrite <- (firstn_skipn len (vec_add l r)) at 2. rewrite app_nth1; [reflexivity|]. rewrite firstn_length, vec_add_length. lia.
Qed.

Lemma tree_honest k0 k1 alpha beta attrs : honest_keys E k0 k1 alpha beta -> alpha <> [] -> (forall a, In a attrs -> 1 <= length a <= length alpha) ->
  exists v0 v1 t, eval_tree E k0 attrs (length beta) [] = Ret (v0, beta_share E (length beta) k0, t) /\ eval_tree E k1 attrs (length beta) [] = Ret (v1, beta_share E (length beta) k1, t) /\
  forall a attr j, nth_error attrs a = Some attr -> j < length beta -> fadd (comp a j v0) (comp a j v1) = nth j (point_value alpha beta attr) (of_Z 0).
Proof.
  intros Hh Hne Hp. pose proof (honest_keys_pair E _ _ _ _ Hok Hh) as Hpair. destruct (honest_typed _ _ _ _ _ Hok Hpair) as [Hty0 Hty1].
  destruct (eval_tree_honest E Hok k0 k1 alpha beta Hpair attrs [] Hne Hp) as (v0 & b0 & v1 & b1 & t & H0 & H1 & L0 & L1 & Hv & _).
  destruct (C05_lemma E k0 k1 _ _ _ _ _ _ _ _ Hok Hty0 Hty1 ltac:(apply Hpair) ltac:(apply Hpair) H0 H1) as (_ & (l0 & r0 & l1 & r1 & a & b & a' & b' & A & B & C & D & _ & -> & ->) & _).
  exists v0, v1, t. split; [rewrite H0, (beta_is_share _ _ _ _ _ _ Hty0 A B); reflexivity|]. split; [rewrite H1, (beta_is_share _ _ _ _ _ _ Hty1 C D); reflexivity|].
  intros i attr j Hi Hj. assert (Hil : i < length attrs) by (apply nth_error_Some; congruence).
  destruct (nth_error v0 i) as [w0|] eqn:W0; [|apply nth_error_None in W0; lia]. destruct (nth_error v1 i) as [w1|] eqn:W1; [|apply nth_error_None in W1; lia].
  destruct (Hv i attr w0 w1 Hi W0 W1) as (M0 & M1 & M). unfold comp. rewrite (nth_error_nth _ _ [] W0), (nth_error_nth _ _ [] W1).
  assert (Hpl : length (point_value alpha beta attr) = length beta + 1) by apply point_value_length.
  symmetry. apply nth_error_nth. apply (M j).
  - apply nth_error_nth'. lia.
  - apply nth_error_nth'. lia.
Qed.

Variables (len bits : nat) (vk : bytes) (clients : list client) (reports : list plaintext_report) (chs : list choice).
Hypothesis Hb : 1 <= bits.
Hypothesis Hrep : mapM (gen_report E len) clients = Ret reports.
Hypothesis Hcl : Forall (good_client E len bits vk) clients.
Hypothesis Hch : Forall (good_choice E len vk reports) chs.
Hypothesis Hver : fixed_verifier_len E len.
Variable attrs : list (list bool).
Hypothesis Hattrs : forall a, In a attrs -> 1 <= length a <= bits.

Lemma sum_same a b : length a = length b -> sum_onto a b = add_shares a b.
Proof.
  intros H. symmetry. unfold sum_onto. apply nth_seq_map with (d := of_Z 0); [|unfold add_shares; rewrite map_length, combine_length; lia].
  unfold add_shares. intros j Hj. revert b H j Hj. induction a as [|x a IH]; intros [|y b] H j Hj; cbn in *; try lia. destruct j; [reflexivity|]. apply IH; lia.
Qed.

(** the row of one upload *)
Definition honest_row (ch : choice) (w : row) : Prop :=
  row_of E len vk attrs (share0 reports ch, share1 reports ch) w /\ w_fit w = counts ch /\ w_agree w = true /\
  exists cl, nth_error clients (ch_idx ch) = Some cl /\
  forall a attr j, nth_error attrs a = Some attr -> j < len ->
    fadd (comp a j (w_vals0 w)) (comp a j (w_vals1 w)) = if is_prefix attr (cl_alpha cl) && (cl_bucket cl =? j) then of_Z 1 else of_Z 0.
Lemma row_exists ch : In ch chs -> exists w, honest_row ch w.
Proof.
  intros Hin. destruct (upload_facts E Hok len bits vk clients reports chs Hb Hrep Hcl Hch ch Hin) as (cl & r0 & r1 & Hc & Hu & Hlt & Ha & W0 & W1 & Hv & Hk).
  destruct W0 as (n0 & k0 & p0 & jr0 & -> & Hty0 & _). destruct W1 as (n1 & k1 & p1 & jr1 & -> & Hty1 & _). cbn [key_of] in Hk.
  destruct (tree_honest k0 k1 _ _ attrs Hk) as (v0 & v1 & t & H0 & H1 & Hvals).
  { intros Hc0. rewrite Hc0 in Ha. cbn in Ha. lia. } { rewrite Ha. exact Hattrs. }
  rewrite one_hot_length in *. destruct Hv as (x0 & x1 & Q0 & Q1 & Hd). cbn [verifier_share] in Q0, Q1.
  exists {| w_vals0 := v0; w_vals1 := v1; w_fit := counts ch; w_agree := true |}. unfold honest_row. cbn [w_fit w_agree w_vals0 w_vals1]. split; [|split; [reflexivity|split; [reflexivity|]]].
  - unfold row_of, share0, share1. rewrite Hu. cbn [fst snd tree_share w_vals0 w_vals1 w_fit w_agree]. rewrite H0, H1, Q0, Q1.
    exists x0, (blake3 E t), x1, (blake3 E t). split; [reflexivity|]. split; [reflexivity|]. split; [|split; reflexivity].
    destruct Hver as [n Hn]. rewrite sum_same; [exact Hd|]. rewrite (Hn _ _ _ _ _ Q0), (Hn _ _ _ _ _ Q1). reflexivity.
  - exists cl. split; [exact Hc|]. intros a attr j Hattr Hj. rewrite (Hvals a attr j Hattr Hj). unfold point_value. destruct (is_prefix attr (cl_alpha cl)); cbn [andb].
    + rewrite app_nth1 by (rewrite one_hot_length; exact Hj). apply one_hot_nth. exact Hj.
    + rewrite nth_repeat. reflexivity.
Qed.
Lemma rows_exist : exists rows, Forall2 honest_row chs rows.
Proof.
  assert (H : forall l, incl l chs -> exists rows, Forall2 honest_row l rows).
  { induction l as [|ch l IH]; intros Hl; [exists []; constructor|]. destruct (row_exists ch (Hl ch (or_introl eq_refl))) as [w Hw]. destruct (IH (fun x Hx => Hl x (or_intror Hx))) as [ws Hws]. exists (w :: ws). constructor; assumption. }
  apply H. intros x Hx. exact Hx.
Qed.

Lemma cell_tally l ws a attr j : Forall2 honest_row l ws -> nth_error attrs a = Some attr -> j < len ->
  cell (filter (kept (dbg E)) ws) a j = of_Z (tally_bucket (in_table (dbg E) clients l) attr j).
Proof.
  intros HF Ha Hj. unfold cell, tally_bucket.
  induction HF as [|ch w l ws (Hr & Hfit & Hsame & cl & Hc & Hv) HF IH]; [reflexivity|].
  unfold in_table in *. cbn [flat_map filter]. unfold kept at 1. rewrite Hfit, Hsame, andb_true_r, Hc.
  destruct (negb (dbg E) || counts ch); cbn [app]; [|exact IH].
  cbn [map fsum filter fst snd]. rewrite (Hv a attr j Ha Hj), IH. destruct (is_prefix attr (cl_alpha cl) && (cl_bucket cl =? j)).
  - cbn [length]. rewrite <- of_Z_add. f_equal. lia.
  - change (of_Z 0) with fzero. ring.
Qed.
Lemma table_tally l ws : Forall2 honest_row l ws -> row_table (dbg E) len attrs ws = tally_table len attrs (in_table (dbg E) clients l).
Proof.
  intros HF. unfold row_table, tally_table.
  assert (H : forall as' (f : nat -> list fld) s (g : list bool -> list fld), (forall a attr, nth_error as' a = Some attr -> f (s + a) = g attr) -> combine as' (map f (seq s (length as'))) = map (fun a => (a, g a)) as').
  { induction as' as [|x as' IH]; intros f s g H; [reflexivity|]. cbn [length seq map combine]. f_equal; [f_equal; rewrite <- (H 0 x eq_refl); f_equal; lia|]. apply IH. intros a attr Ha. replace (S s + a) with (s + S a) by lia. apply H. exact Ha. }
  apply H. intros a attr Ha. cbn [Nat.add]. apply map_ext_in. intros j Hj. apply in_seq in Hj. apply cell_tally; [exact HF|exact Ha|lia].
Qed.
Lemma forall2_firstn {A B} (R : A -> B -> Prop) l l' n : Forall2 R l l' -> Forall2 R (firstn n l) (firstn n l').
Proof. intros H. revert n. induction H; intros [|n]; cbn; constructor; auto. Qed.

Lemma run_abm_honest cfg s0 s1 : cfg_hist cfg = len -> 0 < cfg_query_batch cfg ->
  untouched true len vk (map (share0 reports) chs) s0 -> untouched false len vk (map (share1 reports) chs) s1 ->
  exists t0 t1, run_abm E cfg s0 s1 attrs (length chs) =
    Ret (t0, t1, map (fun e => tally_table len attrs (in_table (dbg E) clients (firstn e chs))) (batch_ends (length chs) (cfg_query_batch cfg))).
Proof.
  intros Hh Hq U0 U1. destruct rows_exist as [rows Hrows].
  destruct (run_abm_exact E cfg len vk attrs Hh (map (fun ch => (share0 reports ch, share1 reports ch)) chs) rows s0 s1) as (t0 & t1 & H).
  { clear -Hrows. induction Hrows as [|ch w l ws [H _] HF IH]; cbn [map]; constructor; assumption. }
  { exact Hq. } { rewrite map_map. exact U0. } { rewrite map_map. exact U1. }
  assert (Hl : length rows = length chs) by (clear -Hrows; induction Hrows; cbn; congruence).
  assert (Ht : existsb (fun w => negb (w_fit w) && negb (w_agree w)) rows = false).
  { clear -Hrows. induction Hrows as [|ch w l ws (_ & _ & Hsm & _) HF IH]; cbn [existsb]; [reflexivity|]. rewrite Hsm, andb_false_r. exact IH. }
  rewrite Ht, andb_false_r, Hl in H. exists t0, t1. rewrite H. do 2 f_equal. apply map_ext. intros e. apply table_tally. apply forall2_firstn. exact Hrows.
Qed.
End AbmMain.

Lemma reports_alphas E len clients reports : env_ok E -> mapM (gen_report E len) clients = Ret reports -> Forall2 (fun cl r => unwrap_alpha r = Ret (cl_alpha cl)) clients reports.
Proof.
  intros _ H. apply mapM_inv in H. clear -H. induction H as [|cl r l l' Hr H IH]; constructor; [|exact IH]. unfold gen_report in Hr.
  bret Hr as beta Hbeta. bret Hr as [k0 k1] Hg. bret Hr as pf Hpf. assert (Hret : forall A (a b : A), Ret a = Ret b -> b = a) by congruence. apply Hret in Hr. rewrite Hr. reflexivity.
Qed.

Lemma main_abm_ok E len bits vk clients reports chs samples order fuel cfg s0 s1 :
  env_ok E -> 1 <= bits -> mapM (gen_report E len) clients = Ret reports ->
  Forall (good_client E len bits vk) clients -> Forall (good_choice E len vk reports) chs -> fixed_verifier_len E len ->
  cfg_hist cfg = len -> 0 < cfg_query_batch cfg -> 0 < cfg_add_batch cfg -> hist_ok len = true -> clients <> [] -> length chs <= fuel ->
  running 0 bits s0 -> (exists id, id <> 0%Z /\ running id bits s1) ->
  (forall s, In s samples -> 1 <= s < length clients) -> (forall l, Permutation (order l) l) ->
  exists t0 t1 attrs, main_abm fuel E cfg clients vk chs samples order s0 s1 =
    Ret (t0, t1, map (fun e => tally_table len attrs (in_table (dbg E) clients (firstn e chs))) (batch_ends (length chs) (cfg_query_batch cfg))) /\
    NoDup attrs /\ forall a, In a attrs <-> exists i cl, In i samples /\ nth_error clients i = Some cl /\ a = cl_alpha cl.
Proof.
  intros Hok Hb Hrep Hcl Hch Hver Hh Hq Ha Hist Hne Hf (P0 & I0 & B0) (id & Hid & P1 & I1 & B1) Hs Hord.
  pose proof (reports_alphas E len clients reports Hok Hrep) as Hal. pose proof (Forall2_len _ _ _ Hal) as Hll.
  destruct (sample_ok reports samples) as (attrs & Hat & Hnd & Hin).
  { intros r Hr. clear -Hal Hr. induction Hal as [|cl r' l l' H1 H2 IH]; [destruct Hr|]. destruct Hr as [->|Hr]; [eauto|auto]. }
  { intros s Hss. rewrite <- Hll. apply Hs. exact Hss. }
  assert (Hin2 : forall a, In a (order attrs) <-> exists i cl, In i samples /\ nth_error clients i = Some cl /\ a = cl_alpha cl).
  { intros a. assert (Hp : In a (order attrs) <-> In a attrs) by (split; apply Permutation_in; [|apply Permutation_sym]; apply Hord). rewrite Hp, Hin. clear -Hal.
    apply Forall2_nth in Hal. destruct Hal as [Hl Hal]. split.
    - intros (i & r & H1 & H2 & H3). destruct (nth_error clients i) as [cl|] eqn:Hc; [|apply nth_error_None in Hc; assert (i < length reports) by (apply nth_error_Some; congruence); lia].
      exists i, cl. split; [exact H1|]. split; [exact Hc|]. rewrite (Hal _ _ _ Hc H2) in H3. congruence.
    - intros (i & cl & H1 & H2 & ->). destruct (nth_error reports i) as [r|] eqn:Hr; [|apply nth_error_None in Hr; assert (i < length clients) by (apply nth_error_Some; congruence); lia].
      exists i, r. split; [exact H1|]. split; [exact Hr|]. apply (Hal _ _ _ H2 Hr). }
  assert (Hattrs : forall a, In a (order attrs) -> 1 <= length a <= bits).
  { intros a Hia. apply Hin2 in Hia. destruct Hia as (i & cl & _ & Hc & ->). rewrite Forall_forall in Hcl. destruct (Hcl cl (nth_error_In _ _ Hc)) as (_ & _ & Hlen & _). lia. }
  assert (Hreset : forall s, s_poison s = false -> handle E s (QReset vk len) = (set_coll s (coll_new len (s_id s) (s_bits s) vk), Ret ADone)).
  { intros s Hp. apply handle_ret. split; [reflexivity|]. split; [exact Hp|]. eexists. split; [|reflexivity]. cbn [body]. rewrite Hist. reflexivity. }
  set (u0 := set_coll s0 (coll_new len (s_id s0) (s_bits s0) vk)). set (u1 := set_coll s1 (coll_new len (s_id s1) (s_bits s1) vk)).
  destruct (run_abm_honest E Hok len bits vk clients reports chs Hb Hrep Hcl Hch Hver (order attrs) Hattrs cfg (with_reports u0 (map (share0 reports) chs)) (with_reports u1 (map (share1 reports) chs)) Hh Hq) as (t0 & t1 & Hrun).
  { unfold untouched. cbn. rewrite I0, P0, !map_map. cbn. rewrite ?map_id. repeat (split; [reflexivity|]). reflexivity. }
  { unfold untouched. cbn. rewrite I1, P1, !map_map. cbn. split; [reflexivity|]. split; [apply Z.eqb_neq; exact Hid|]. repeat (split; [reflexivity|]). reflexivity. }
  exists t0, t1, (order attrs). split; [|split; [|exact Hin2]].
  - unfold main_abm. rewrite Hh, Hist. cbn [negb]. destruct (length clients =? 0) eqn:Hz; [apply Nat.eqb_eq, length_zero_iff_nil in Hz; contradiction|]. rewrite Hrep. cbn [bind].
    unfold reset_servers. rewrite Hh. rewrite (proj2 (call2_done_ret _ _ _ _ _ _ _)) by (do 2 eexists; split; apply Hreset; assumption). cbn [bind]. fold u0 u1.
    rewrite (upload_spec fuel E cfg reports chs _ u0 u1 Ha Hf P0 P1 (uploads_ret E Hok len bits vk clients reports chs Hb Hrep Hcl Hch)). cbn [bind]. rewrite !map_map. cbn [fst snd].
    rewrite Hat. cbn [bind]. exact Hrun.
  - apply (Permutation_NoDup (Permutation_sym (Hord attrs))). exact Hnd.
Qed.
