(** Proofs for C77. *)
From Verif Require Import Base BaseFacts Field Util UtilFacts Env Prg Vidpf Merkle Collect Server Driver Modes SpecPrg Sched SpecSched SchedFacts SchedRun Conc SpecConc ConcFacts System SpecSystem.
From Coq Require Import Lia.

(** *** the driver with the aggregators called one after the other *)
Fixpoint interp (E : env) {A} (p : proc A) (s0 s1 : server) : outcome (server * server * A) :=
  match p with
  | PDone o => let! a := o in Ret (s0, s1, a)
  | PCompute t k => let! b := alone E t in interp E (k b) s0 s1
  | PAsk q0 q1 k => let! '(s0, s1, (r0, r1)) := call2 E s0 s1 q0 q1 in interp E (k r0 r1) s0 s1
  end.
Definition unit_of (o : outcome (server * server)) : outcome (server * server * unit) := let! '(s0, s1) := o in Ret (s0, s1, tt).

Section Interp.
Context (E : env).
Lemma interp_bind A B (p : proc A) (f : A -> proc B) : forall s0 s1, interp E (pbind p f) s0 s1 = let! '(s0, s1, a) := interp E p s0 s1 in interp E (f a) s0 s1.
Proof.
  induction p as [o|C t k IH|q0 q1 k IH]; intros s0 s1; cbn [pbind interp].
  - destruct o; reflexivity.
  - destruct (alone E t) as [c|e]; cbn [bind]; [apply IH|reflexivity].
  - destruct (call2 E s0 s1 q0 q1) as [[[t0 t1] [r0 r1]]|e]; cbn [bind]; [apply IH|reflexivity].
Qed.
Lemma interp_pure A B (o : outcome A) (f : A -> proc B) s0 s1 : interp E (pbind (PDone o) f) s0 s1 = let! a := o in interp E (f a) s0 s1.
Proof. destruct o; reflexivity. Qed.
Lemma interp_unit B (p : proc unit) (f : unit -> proc B) s0 s1 o : interp E p s0 s1 = unit_of o ->
  interp E (pbind p f) s0 s1 = let! '(s0, s1) := o in interp E (f tt) s0 s1.
Proof. intros H. rewrite interp_bind, H. destruct o as [[t0 t1]|e]; reflexivity. Qed.
Lemma interp_ask q0 q1 s0 s1 : interp E (ask_done q0 q1) s0 s1 = unit_of (call2_done E s0 s1 q0 q1).
Proof. unfold ask_done, call2_done. cbn [interp]. destruct (call2 E s0 s1 q0 q1) as [[[t0 t1] [r0 r1]]|e]; reflexivity. Qed.

Lemma interp_add rs chs s0 s1 : interp E (add_reports_p rs chs) s0 s1 = unit_of (add_reports E rs chs s0 s1).
Proof. unfold add_reports_p, add_reports. rewrite interp_pure. destruct (mapM (make_upload rs) chs); cbn [bind]; [apply interp_ask|reflexivity]. Qed.
Lemma interp_batches rs : forall sizes chs s0 s1, interp E (upload_batches_p rs sizes chs) s0 s1 = unit_of (upload_batches E rs sizes chs s0 s1).
Proof.
  induction sizes as [|n sizes IH]; intros chs s0 s1; cbn [upload_batches_p upload_batches]; [reflexivity|].
  rewrite (interp_unit _ _ _ _ _ _ (interp_add _ _ _ _)). destruct (add_reports E rs (firstn n chs) s0 s1) as [[t0 t1]|e]; cbn [bind]; [apply IH|reflexivity].
Qed.
Lemma interp_upload fuel cfg rs chs s0 s1 : interp E (upload_p fuel cfg rs chs) s0 s1 = unit_of (upload fuel E cfg rs chs s0 s1).
Proof. unfold upload_p, upload. rewrite interp_pure. destruct (upload_sizes fuel (length chs) (cfg_add_batch cfg)); cbn [bind]; [apply interp_batches|reflexivity]. Qed.

Lemma interp_flp_loop cfg n : forall fuel start keep s0 s1, interp E (flp_loop_p fuel E cfg n start keep) s0 s1 = flp_loop fuel E cfg s0 s1 n start keep.
Proof.
  induction fuel as [|fuel IH]; intros start keep s0 s1; cbn [flp_loop_p flp_loop]; destruct (start <? n); try reflexivity.
  cbn [interp]. cbv zeta. destruct (call2 E s0 s1 _ _) as [[[t0 t1] [r0 r1]]|e]; cbn [bind]; [|reflexivity].
  destruct r0; try reflexivity. destruct r1; try reflexivity. rewrite interp_pure. apply bind_ext; [reflexivity|intros _].
  rewrite interp_pure. apply bind_ext; [reflexivity|intros ks]. apply IH.
Qed.
Lemma interp_flp fuel cfg n s0 s1 : interp E (flp_queries_p fuel E cfg n) s0 s1 = unit_of (drv_run_flp_queries fuel E cfg s0 s1 n).
Proof.
  unfold flp_queries_p, drv_run_flp_queries. rewrite interp_bind, interp_flp_loop. destruct (flp_loop fuel E cfg s0 s1 n 0 []) as [[[t0 t1] keep]|e]; cbn [bind]; [apply interp_ask|reflexivity].
Qed.

Lemma interp_level_loop len n thr : forall fuel split mal last s0 s1,
  interp E (level_loop_p fuel len n thr split mal last) s0 s1 =
  let! '(ss, keep, _) := level_loop fuel (ask_servers E) len n thr (s0, s1) split mal last in Ret (fst ss, snd ss, keep).
Proof.
  induction fuel as [|fuel IH]; intros split mal last s0 s1; cbn [level_loop_p level_loop]; [reflexivity|]. cbv zeta.
  unfold ask_servers at 1. cbn [interp fst snd]. destruct (call2 E s0 s1 _ _) as [[[t0 t1] [r0 r1]]|e]; cbn [bind]; [|reflexivity].
  destruct r0; try reflexivity. destruct r1; try reflexivity. cbn [bind].
  rewrite interp_pure. destruct (assert_ _); cbn [bind]; [|reflexivity].
  rewrite interp_pure. destruct (keep_values len thr _ _) as [keep|]; cbn [bind]; [|reflexivity].
  destruct (length _ =? 0); [reflexivity|]. rewrite interp_pure. destruct (mismatches _ _) as [bad|]; cbn [bind]; [|reflexivity].
  destruct bad as [|x bad]; [reflexivity|]. destruct (n <=? split).
  - destruct last; [reflexivity|]. rewrite IH. destruct (level_loop _ _ _ _ _ _ _ _ _) as [[[ss k] m]|]; reflexivity.
  - rewrite IH. destruct (level_loop _ _ _ _ _ _ _ _ _) as [[[ss k] m]|]; reflexivity.
Qed.
Lemma interp_level fuel cfg n s0 s1 : interp E (run_level_p fuel cfg n) s0 s1 = unit_of (run_level fuel E cfg s0 s1 n).
Proof.
  unfold run_level_p, run_level. rewrite interp_bind, interp_level_loop. destruct (level_loop _ _ _ _ _ _ _ _ _) as [[[ss k] m]|]; cbn [bind]; [apply interp_ask|reflexivity].
Qed.
Lemma interp_proofs cfg n : forall fuel start s0 s1, interp E (proofs_loop_p fuel cfg n start) s0 s1 = unit_of (proofs_loop fuel E cfg s0 s1 n start).
Proof.
  induction fuel as [|fuel IH]; intros start s0 s1; cbn [proofs_loop_p proofs_loop]; destruct (start <? n); try reflexivity.
  cbn [interp]. cbv zeta. destruct (call2 E s0 s1 _ _) as [[[t0 t1] [r0 r1]]|e]; cbn [bind]; [|reflexivity].
  destruct r0; try reflexivity. destruct r1; try reflexivity. rewrite interp_pure. destruct (assert_ _); cbn [bind]; [|reflexivity].
  rewrite interp_pure. destruct (assert_ _); cbn [bind]; [apply IH|reflexivity].
Qed.
Lemma interp_last fuel cfg n s0 s1 : interp E (run_level_last_p fuel cfg n) s0 s1 = run_level_last fuel E cfg s0 s1 n.
Proof.
  unfold run_level_last_p, run_level_last. cbn [interp]. destruct (call2 E s0 s1 _ _) as [[[t0 t1] [r0 r1]]|e]; cbn [bind]; [|reflexivity].
  destruct r0; try reflexivity. destruct r1; try reflexivity. rewrite interp_pure. apply bind_ext; [reflexivity|intros _]. rewrite interp_pure. apply bind_ext; [reflexivity|intros keep].
  rewrite (interp_unit _ _ _ _ _ _ (interp_proofs _ _ _ _ _ _)). apply bind_ext; [reflexivity|]. intros [u0 u1].
  rewrite (interp_unit _ _ _ _ _ _ (interp_ask _ _ _ _)). apply bind_ext; [reflexivity|]. intros [v0' v1'].
  cbn [interp]. destruct (call2 E v0' v1' _ _) as [[[w0 w1] [x0 x1]]|e]; cbn [bind]; [|reflexivity]. destruct x0; try reflexivity. destruct x1; reflexivity.
Qed.
Lemma interp_levels fuel cfg n : forall levels first s0 s1, interp E (levels_loop_p fuel E cfg n first levels) s0 s1 = unit_of (levels_loop fuel E cfg s0 s1 n first levels).
Proof.
  induction levels as [|levels IH]; intros first s0 s1; cbn [levels_loop_p levels_loop]; [reflexivity|].
  assert (Hf : interp E (if first then flp_queries_p fuel E cfg n else PDone (Ret tt)) s0 s1 = unit_of (if first then drv_run_flp_queries fuel E cfg s0 s1 n else Ret (s0, s1))) by (destruct first; [apply interp_flp|reflexivity]).
  rewrite (interp_unit _ _ _ _ _ _ Hf). destruct (if first then drv_run_flp_queries fuel E cfg s0 s1 n else Ret (s0, s1)) as [[t0 t1]|e]; cbn [bind]; [|reflexivity].
  rewrite (interp_unit _ _ _ _ _ _ (interp_level _ _ _ _ _)). destruct (run_level fuel E cfg t0 t1 n) as [[u0 u1]|e]; cbn [bind]; [apply IH|reflexivity].
Qed.
Lemma interp_run_whh fuel cfg n s0 s1 : interp E (run_whh_p fuel E cfg n) s0 s1 = run_whh fuel E cfg s0 s1 n.
Proof.
  unfold run_whh_p, run_whh. rewrite (interp_unit _ _ _ _ _ _ (interp_ask _ _ _ _)). apply bind_ext; [reflexivity|]. intros [t0 t1].
  rewrite interp_pure. apply bind_ext; [reflexivity|intros bits]. destruct (bits =? 0); [reflexivity|].
  rewrite (interp_unit _ _ _ _ _ _ (interp_levels _ _ _ _ _ _ _)). apply bind_ext; [reflexivity|]. intros [u0 u1]. apply interp_last.
Qed.
Lemma interp_reset cfg vk s0 s1 : interp E (reset_p cfg vk) s0 s1 = unit_of (reset_servers E cfg vk s0 s1).
Proof. apply interp_ask. Qed.
Lemma interp_main_whh fuel cfg clients vk chs s0 s1 : interp E (main_whh_p fuel E cfg clients vk chs) s0 s1 = main_whh fuel E cfg clients vk chs s0 s1.
Proof.
  unfold main_whh_p, main_whh. destruct (negb (hist_ok (cfg_hist cfg))); [reflexivity|]. destruct (length clients =? 0); [reflexivity|]. cbn [interp]. rewrite (alone_reports E). apply bind_ext; [reflexivity|intros reports].
  rewrite (interp_unit _ _ _ _ _ _ (interp_reset _ _ _ _)). apply bind_ext; [reflexivity|]. intros [t0 t1].
  rewrite (interp_unit _ _ _ _ _ _ (interp_upload _ _ _ _ _ _)). apply bind_ext; [reflexivity|]. intros [u0 u1]. apply interp_run_whh.
Qed.

Lemma interp_abm_batch cfg attrs start stop s0 s1 : interp E (abm_batch_p E cfg attrs start stop) s0 s1 = abm_batch E cfg s0 s1 attrs start stop.
Proof.
  unfold abm_batch_p, abm_batch. cbv zeta. cbn [interp]. destruct (call2 E s0 s1 _ _) as [[[t0 t1] [r0 r1]]|e]; cbn [bind]; [|reflexivity].
  destruct r0; try reflexivity. destruct r1; try reflexivity. rewrite interp_pure. apply bind_ext; [reflexivity|intros _]. rewrite interp_pure. apply bind_ext; [reflexivity|intros _].
  rewrite interp_pure. apply bind_ext; [reflexivity|intros rej]. cbn [interp]. destruct (call2 E t0 t1 _ _) as [[[w0 w1] [x0 x1]]|e]; cbn [bind]; [|reflexivity]. destruct x0; try reflexivity. destruct x1; reflexivity.
Qed.
Lemma interp_abm_batches cfg attrs n : forall starts s0 s1, interp E (abm_batches_p E cfg attrs n starts) s0 s1 = abm_batches E cfg s0 s1 attrs n starts.
Proof.
  induction starts as [|st starts IH]; intros s0 s1; cbn [abm_batches_p abm_batches]; [reflexivity|]. cbv zeta. rewrite interp_bind, interp_abm_batch. apply bind_ext; [reflexivity|]. intros [[t0 t1] t].
  rewrite interp_bind, IH. apply bind_ext; [reflexivity|]. intros [[u0 u1] ts]. reflexivity.
Qed.
Lemma interp_main_abm fuel cfg clients vk chs samples order s0 s1 : interp E (main_abm_p fuel E cfg clients vk chs samples order) s0 s1 = main_abm fuel E cfg clients vk chs samples order s0 s1.
Proof.
  unfold main_abm_p, main_abm. destruct (negb (hist_ok (cfg_hist cfg))); [reflexivity|]. destruct (length clients =? 0); [reflexivity|]. cbn [interp]. rewrite (alone_reports E). apply bind_ext; [reflexivity|intros reports].
  rewrite (interp_unit _ _ _ _ _ _ (interp_reset _ _ _ _)). apply bind_ext; [reflexivity|]. intros [t0 t1].
  rewrite (interp_unit _ _ _ _ _ _ (interp_upload _ _ _ _ _ _)). apply bind_ext; [reflexivity|]. intros [u0 u1].
  rewrite interp_pure. apply bind_ext; [reflexivity|intros attrs]. rewrite interp_pure. unfold run_abm. apply bind_ext; [reflexivity|intros starts]. apply interp_abm_batches.
Qed.
Lemma interp_pm_batch cfg start stop s0 s1 : interp E (pm_batch_p E cfg start stop) s0 s1 = pm_batch E cfg s0 s1 start stop.
Proof.
  unfold pm_batch_p, pm_batch. cbv zeta. cbn [interp]. destruct (call2 E s0 s1 _ _) as [[[t0 t1] [r0 r1]]|e]; cbn [bind]; [|reflexivity].
  destruct r0; try reflexivity. destruct r1; try reflexivity. rewrite interp_pure. apply bind_ext; [reflexivity|intros _]. rewrite interp_pure. apply bind_ext; [reflexivity|intros _].
  cbn [interp]. destruct (call2 E t0 t1 _ _) as [[[w0 w1] [x0 x1]]|e]; cbn [bind]; [|reflexivity]. destruct x0; try reflexivity. destruct x1; try reflexivity.
  rewrite interp_pure. apply bind_ext; [reflexivity|intros _]. rewrite interp_pure. apply bind_ext; [reflexivity|intros _]. rewrite interp_pure. apply bind_ext; [reflexivity|]. intros res. reflexivity.
Qed.
Lemma interp_pm_batches cfg n : forall starts s0 s1, interp E (pm_batches_p E cfg n starts) s0 s1 = pm_batches E cfg s0 s1 n starts.
Proof.
  induction starts as [|st starts IH]; intros s0 s1; cbn [pm_batches_p pm_batches]; [reflexivity|]. cbv zeta. rewrite interp_bind, interp_pm_batch. apply bind_ext; [reflexivity|]. intros [[t0 t1] t].
  rewrite interp_bind, IH. apply bind_ext; [reflexivity|]. intros [[u0 u1] ts]. reflexivity.
Qed.
Lemma interp_main_pm fuel shard cfg clients vk chs s0 s1 : interp E (main_pm_p fuel E shard cfg clients vk chs) s0 s1 = main_pm fuel E shard cfg clients vk chs s0 s1.
Proof.
  unfold main_pm_p, main_pm. destruct (negb (hist_ok (cfg_hist cfg))) eqn:Hh; [reflexivity|]. destruct (length clients =? 0); [reflexivity|]. cbn [interp]. rewrite (alone_map E _ _ _ (gen_prio_report shard (cfg_hist cfg))) by reflexivity. apply bind_ext; [reflexivity|intros reports].
  rewrite (interp_unit _ _ _ _ _ _ (interp_reset _ _ _ _)). apply bind_ext; [reflexivity|]. intros [t0 t1].
  rewrite (interp_unit _ _ _ _ _ _ (interp_upload _ _ _ _ _ _)). apply bind_ext; [reflexivity|]. intros [u0 u1].
  unfold run_pm. rewrite Hh. rewrite interp_pure. apply bind_ext; [reflexivity|intros starts]. apply interp_pm_batches.
Qed.
End Interp.

(** *** every generator call and every uploaded report of the driver is in order *)
Fixpoint fine (E : env) {A} (p : proc A) : Prop :=
  match p with
  | PDone _ => True
  | PCompute t k => good E t /\ forall b, alone E t = Ret b -> fine E (k b)
  | PAsk q0 q1 k => Forall report16 (reports_in q0) /\ Forall report16 (reports_in q1) /\ forall r0 r1, fine E (k r0 r1)
  end.
Definition plain16 (r : plaintext_report) : Prop := report16 (fst (to_shares r)) /\ report16 (snd (to_shares r)).
Section Fine.
Context (E : env) (Hok : env_ok E).
Lemma fine_bind A B (p : proc A) (f : A -> proc B) : fine E p -> (forall a, fine E (f a)) -> fine E (pbind p f).
Proof.
  intros Hp Hf. induction p as [[a|e]|C t k IH|q0 q1 k IH]; cbn [pbind fine] in *.
  - apply Hf.
  - exact I.
  - destruct Hp as [Hg Hk]. split; [exact Hg|]. intros b Hb. apply IH. apply Hk. exact Hb.
  - destruct Hp as (H0 & H1 & Hk). split; [exact H0|]. split; [exact H1|]. intros r0 r1. apply IH. apply Hk.
Qed.
Lemma fine_pure A B (o : outcome A) (f : A -> proc B) : (forall a, o = Ret a -> fine E (f a)) -> fine E (pbind (PDone o) f).
Proof. intros H. destruct o; cbn; [apply H; reflexivity|exact I]. Qed.
Lemma fine_ask q0 q1 : Forall report16 (reports_in q0) -> Forall report16 (reports_in q1) -> fine E (ask_done q0 q1).
Proof. intros H0 H1. split; [exact H0|]. split; [exact H1|]. intros _ _. exact I. Qed.

Lemma upload16 rs ch r0 r1 : Forall plain16 rs -> make_upload rs ch = Ret (r0, r1) -> report16 r0 /\ report16 r1.
Proof.
  intros Hrs. unfold make_upload, index. destruct (nth_error rs (ch_idx ch)) as [r|] eqn:Hr; cbn [bind]; [|discriminate].
  apply nth_error_In in Hr. pose proof (proj1 (Forall_forall _ _) Hrs _ Hr) as [H0 H1]. destruct (to_shares r) as [a b]. cbn [fst snd] in H0, H1.
  destruct (ch_malicious ch); cbn [bind].
  - destruct b as [nonce k proof jr|nonce pub inp]; cbn [tamper]; [destruct (ch_coin ch)|]; cbv zeta; unfold index;
      match goal with |- context [nth_error ?l 0] => destruct (nth_error l 0) end; cbn [bind]; try discriminate; intros H; injection H as <- <-; split; try exact H0; try exact H1; exact I.
  - intros H. injection H as <- <-. split; assumption.
Qed.
Lemma uploads16 rs chs ups : Forall plain16 rs -> mapM (make_upload rs) chs = Ret ups -> Forall report16 (map fst ups) /\ Forall report16 (map snd ups).
Proof.
  intros Hrs H. pose proof (mapM_inv _ _ _ H) as HF. clear H. induction HF as [|ch [r0 r1] chs ups Hu _ IH]; [split; constructor|].
  destruct (upload16 _ _ _ _ Hrs Hu). destruct IH. split; constructor; assumption.
Qed.
Lemma fine_upload fuel cfg rs chs : Forall plain16 rs -> fine E (upload_p fuel cfg rs chs).
Proof.
  intros Hrs. unfold upload_p. apply fine_pure. intros sizes _. revert chs. induction sizes as [|n sizes IH]; intros chs; cbn [upload_batches_p]; [exact I|].
  apply fine_bind; [|intros _; apply IH]. unfold add_reports_p. apply fine_pure. intros ups Hu. destruct (uploads16 _ _ _ Hrs Hu). apply fine_ask; assumption.
Qed.
Lemma loop16 beta : forall alpha bs bits seeds cws css, is_key (fst seeds) -> is_key (snd seeds) -> gen_loop E alpha beta bs bits seeds = Ret (cws, css) -> Forall (fun cw => is_key (cw_seed cw)) cws.
Proof.
  induction alpha as [|b alpha IH]; intros bs bits seeds cws css H0 H1; cbn [gen_loop]; [intros H; injection H as <- <-; constructor|]. cbv zeta.
  destruct (gen_cor_word E b beta bits seeds) as [[[cw bits'] seeds']|] eqn:Hc; cbn [bind]; [|discriminate].
  destruct (gen_loop E alpha beta (bs ++ [bit_char b]) bits' seeds') as [[cws' css']|] eqn:Hl; cbn [bind]; [|discriminate]. intros H. injection H as <- <-.
  destruct (cor_good E Hok b beta bits seeds H0 H1) as [_ Hk]. pose proof (Hk _ _ _ Hc) as [Hk0 Hk1]. constructor; [|eapply IH; [exact Hk0|exact Hk1|exact Hl]].
  clear - Hc H0 H1 Hok. unfold gen_cor_word, expand in Hc. bret Hc as d0 Hd0. bret Hc as d1 Hd1. cbv zeta in Hc. destruct (next_seed_bit d0 _ _ _ _) as [a0 b0]. destruct (next_seed_bit d1 _ _ _ _) as [a1 b1].
  bret Hc as c0 Hc0. destruct c0 as [cs0 cw0]. bret Hc as c1 Hc1. destruct c1 as [cs1 cw1]. injection Hc as <- _ _. cbn [cw_seed]. apply lxor_key; [apply (expand_keys E Hok _ _ _ _ H0 Hd0)|apply (expand_keys E Hok _ _ _ _ H1 Hd1)].
Qed.
Lemma report_plain16 len cl r : client16 cl -> gen_report E len cl = Ret r -> plain16 r.
Proof.
  intros [H0 H1]. unfold gen_report, gen. intros H. bret H as beta Hb. bret H as ks Hks. destruct ks as [k0 k1]. bret Hks as w Hw. destruct w as [cws css]. injection Hks as <- <-. cbv zeta in H. bret H as pf Hpf. injection H as <-.
  pose proof (loop16 _ _ _ _ (cl_seed0 cl, cl_seed1 cl) _ _ H0 H1 Hw). split; cbn; split; assumption.
Qed.
Lemma reports_plain16 len cls rs : Forall client16 cls -> mapM (gen_report E len) cls = Ret rs -> Forall plain16 rs.
Proof.
  intros Hc H. pose proof (mapM_inv _ _ _ H) as HF. clear H. induction HF as [|cl r cls rs Hr _ IH]; [constructor|]. inversion Hc; subst. constructor; [eapply report_plain16; eassumption|apply IH; assumption].
Qed.

Lemma fine_flp_loop cfg n : forall fuel start keep, fine E (flp_loop_p fuel E cfg n start keep).
Proof.
  induction fuel as [|fuel IH]; intros start keep; cbn [flp_loop_p]; destruct (start <? n); try exact I. cbv zeta. split; [constructor|]. split; [constructor|]. intros r0 r1.
  destruct r0; try exact I. destruct r1; try exact I. apply fine_pure. intros _ _. apply fine_pure. intros ks _. apply IH.
Qed.
Lemma fine_level_loop len n thr : forall fuel split mal last, fine E (level_loop_p fuel len n thr split mal last).
Proof.
  induction fuel as [|fuel IH]; intros sp mal last; cbn [level_loop_p]; [exact I|]. cbv zeta. split; [constructor|]. split; [constructor|]. intros r0 r1.
  destruct r0; try exact I. destruct r1; try exact I. apply fine_pure. intros _ _. apply fine_pure. intros ks _. destruct (_ =? 0); [exact I|]. apply fine_pure. intros bad _.
  destruct bad; [exact I|]. destruct (n <=? sp); [destruct last; [exact I|]|]; apply IH.
Qed.
Lemma fine_proofs cfg n : forall fuel start, fine E (proofs_loop_p fuel cfg n start).
Proof.
  induction fuel as [|fuel IH]; intros start; cbn [proofs_loop_p]; destruct (start <? n); try exact I. cbv zeta. split; [constructor|]. split; [constructor|]. intros r0 r1.
  destruct r0; try exact I. destruct r1; try exact I. apply fine_pure. intros _ _. apply fine_pure. intros _ _. apply IH.
Qed.
Lemma fine_done q : reports_in q = [] -> fine E (ask_done q q).
Proof. intros H. apply fine_ask; rewrite H; constructor. Qed.
Lemma fine_last fuel cfg n : fine E (run_level_last_p fuel cfg n).
Proof.
  split; [constructor|]. split; [constructor|]. intros r0 r1. destruct r0; try exact I. destruct r1; try exact I. apply fine_pure. intros _ _. apply fine_pure. intros keep _.
  apply fine_bind; [apply fine_proofs|intros _]. apply fine_bind; [apply fine_done; reflexivity|intros _]. split; [constructor|]. split; [constructor|]. intros x0 x1. destruct x0; try exact I. destruct x1; exact I.
Qed.
Lemma fine_levels fuel cfg n : forall levels first, fine E (levels_loop_p fuel E cfg n first levels).
Proof.
  induction levels as [|levels IH]; intros first; cbn [levels_loop_p]; [exact I|]. apply fine_bind.
  - destruct first; [|exact I]. unfold flp_queries_p. apply fine_bind; [apply fine_flp_loop|intros keep; apply fine_done; reflexivity].
  - intros _. apply fine_bind; [|intros _; apply IH]. unfold run_level_p. apply fine_bind; [apply fine_level_loop|intros keep; apply fine_done; reflexivity].
Qed.
Lemma fine_main_whh fuel cfg clients vk chs : Forall client16 clients -> fine E (main_whh_p fuel E cfg clients vk chs).
Proof.
  intros Hc. unfold main_whh_p. destruct (negb _); [exact I|]. destruct (length clients =? 0); [exact I|]. split; [apply reports_good; assumption|]. intros rs Hrs. rewrite alone_reports in Hrs.
  apply fine_bind; [apply fine_done; reflexivity|intros _]. apply fine_bind; [apply fine_upload; eapply reports_plain16; eassumption|intros _].
  unfold run_whh_p. apply fine_bind; [apply fine_done; reflexivity|intros _]. apply fine_pure. intros bits _. destruct (bits =? 0); [exact I|]. apply fine_bind; [apply fine_levels|intros _; apply fine_last].
Qed.
Lemma fine_main_abm fuel cfg clients vk chs samples order : Forall client16 clients -> fine E (main_abm_p fuel E cfg clients vk chs samples order).
Proof.
  intros Hc. unfold main_abm_p. destruct (negb _); [exact I|]. destruct (length clients =? 0); [exact I|]. split; [apply reports_good; assumption|]. intros rs Hrs. rewrite alone_reports in Hrs.
  apply fine_bind; [apply fine_done; reflexivity|intros _]. apply fine_bind; [apply fine_upload; eapply reports_plain16; eassumption|intros _].
  apply fine_pure. intros attrs _. apply fine_pure. intros starts _. induction starts as [|st starts IH]; cbn [abm_batches_p]; [exact I|]. cbv zeta. apply fine_bind.
  - split; [constructor|]. split; [constructor|]. intros r0 r1. destruct r0; try exact I. destruct r1; try exact I. apply fine_pure. intros _ _. apply fine_pure. intros _ _. apply fine_pure. intros rej _. cbv zeta.
    split; [constructor|]. split; [constructor|]. intros x0 x1. destruct x0; try exact I. destruct x1; exact I.
  - intros t. apply fine_bind; [exact IH|intros ts; exact I].
Qed.
Lemma fine_main_pm fuel shard cfg clients vk chs : fine E (main_pm_p fuel E shard cfg clients vk chs).
Proof.
  unfold main_pm_p. destruct (negb _); [exact I|]. destruct (length clients =? 0); [exact I|]. split; [apply good_par; intros; exact I|]. intros rs Hrs. rewrite (alone_map E _ _ _ (gen_prio_report shard (cfg_hist cfg))) in Hrs by reflexivity.
  apply fine_bind; [apply fine_done; reflexivity|intros _]. apply fine_bind.
  - apply fine_upload. pose proof (mapM_inv _ _ _ Hrs) as HF. clear Hrs. induction HF as [|cl r cls rs Hr _ IH]; constructor; [|exact IH]. unfold gen_prio_report in Hr. bret Hr as x Hx. injection Hr as <-. split; exact I.
  - intros _. cbv iota. apply fine_pure. intros starts _. induction starts as [|st starts IH]; cbn [pm_batches_p]; [exact I|]. cbv zeta. apply fine_bind; [|intros t; apply fine_bind; [exact IH|intros ts; exact I]].
    split; [constructor|]. split; [constructor|]. intros r0 r1. destruct r0; try exact I. destruct r1; try exact I. apply fine_pure. intros _ _. apply fine_pure. intros _ _.
    split; [constructor|]. split; [constructor|]. intros x0 x1. destruct x0; try exact I. destruct x1; try exact I. apply fine_pure. intros _ _. apply fine_pure. intros _ _. apply fine_pure. intros res _. exact I.
Qed.
End Fine.

(** *** one aggregator answering one request *)
Definition idle (m : machine) (s : server) : Prop :=
  m_server m = s /\ m_locked m = false /\ ok_threads (m_threads m) /\ coll16 (s_coll s) /\ Forall (fun st => exists o, st = Answered o) (m_stages m).
Section Machines.
Context (E : env) (Hok : env_ok E).
Record cinv (s : server) (q : request) (m : machine) : Prop := {
  ci_inv : minv E s [q] m; ci_order : exists order, in_order E s [q] m order; ci_len : length (m_stages m) = 1;
  ci_coll : coll16 (s_coll s); ci_new : Forall report16 (reports_in q) }.

Lemma idle_stuck m s m' : idle m s -> ~ machine_step E m m'.
Proof.
  intros (_ & _ & _ & _ & Hf) [i Hi]. unfold request_step in Hi. destruct (nth_error (m_stages m) i) as [st|] eqn:Hn; [|exact Hi].
  destruct (proj1 (Forall_forall _ _) Hf _ (nth_error_In _ _ Hn)) as [o ->]. exact Hi.
Qed.
Lemma receive_start m s q : idle m s -> receive m q = machine_start s (m_threads m) [q].
Proof. intros (Hs & Hl & _). destruct m as [a b c d e f g]. cbn in *. subst s. unfold receive, machine_start. cbn. rewrite Hl. reflexivity. Qed.
Lemma receive_cinv m s q : idle m s -> Forall report16 (reports_in q) -> cinv s q (receive m q).
Proof.
  intros Hi Hq. rewrite (receive_start _ _ _ Hi). destruct Hi as (_ & _ & Ht & Hc & _). constructor; [apply start_inv; assumption|exists []; apply start_order|reflexivity|exact Hc|exact Hq].
Qed.
Lemma step_length m i m' : request_step E m i m' -> length (m_stages m') = length (m_stages m).
Proof.
  unfold request_step. destruct (nth_error (m_stages m) i) as [[q|q|t|o]|]; try contradiction.
  - intros ->. apply update_length.
  - intros [_ ->]. destruct (m_poison m); apply update_length.
  - intros [(a & b & _ & ->)|[(a & b & _ & ->)|(a & b & _ & ->)]]; apply update_length.
Qed.
Lemma cinv_step s q m m' : cinv s q m -> machine_step E m m' -> cinv s q m'.
Proof.
  intros [Hi [order Ho] Hl Hc Hq] [i Hs]. assert (Hqs : Forall (fun x => Forall report16 (reports_in x)) [q]) by (constructor; [exact Hq|constructor]).
  destruct (step_order E s [q] m i m' order Hi Hs Ho) as [more Hm]. constructor; [apply (step_inv E Hok s [q] Hqs m i m' Hi Hs)|eauto|rewrite (step_length _ _ _ Hs); exact Hl|exact Hc|exact Hq].
Qed.
Lemma cinv_progress s q m : cinv s q m -> (exists o, m_stages m = [Answered o]) \/ exists m', machine_step E m m'.
Proof.
  intros [Hi _ Hl _ _]. destruct (step_free E Hok s [q] m Hi) as [Ha|Hs]; [left|right; exact Hs]. destruct (Ha 0) as [o Ho]; [lia|]. exists o.
  destruct (m_stages m) as [|st [|st2 l]]; cbn in Hl; try lia. cbn in Ho. congruence.
Qed.
Lemma cinv_answer s q m o : cinv s q m -> m_stages m = [Answered o] ->
  match o with Ret r => snd (handle E s q) = Ret r /\ idle m (fst (handle E s q)) | Panic _ => exists e, snd (handle E s q) = Panic e end.
Proof.
  intros [Hi [order (Hnd & Hin & qs' & s' & ans & Hq & Hh & Ha & Hp & Hco)] _ Hc Hnew] Hst.
  assert (Hord : order = [0]).
  { assert (Hi0 : forall i, In i order <-> i = 0).
    { intros i. rewrite Hin. unfold answered. rewrite Hst. destruct i as [|i]; cbn; [split; [reflexivity|eauto]|]. split; [intros [o' H]; destruct i; discriminate|discriminate]. }
    destruct order as [|a order]; [exfalso; apply (proj2 (Hi0 0) eq_refl)|]. assert (a = 0) by (apply Hi0; left; reflexivity). subst a.
    destruct order as [|b order]; [reflexivity|]. assert (b = 0) by (apply Hi0; right; left; reflexivity). subst b. inversion Hnd as [|x l Hx _]. exfalso. apply Hx. left. reflexivity. }
  subst order. inversion Hq as [|x y l l' Hq0 Hql]; subst. inversion Hql; subst. cbn in Hq0. injection Hq0 as <-. cbn [handle_all] in Hh. pose proof (handle_ids E s q) as [Hid Hbits].
  pose proof (handle16 E s q Hok Hc Hnew) as H16. destruct (handle E s q) as [s1 a] eqn:Hh1. injection Hh as <- <-. cbn [fst snd] in *. inversion Ha as [|x y l l' (o' & Ho & Hsame) _]; subst. rewrite Hst in Ho. cbn in Ho. injection Ho as <-.
  destruct o as [r|e]; destruct a as [r'|e']; cbn [same_outcome] in Hsame; try discriminate; try (destruct Hsame; discriminate); [|eauto].
  injection Hsame as ->. split; [reflexivity|]. assert (Hnp : s_poison s1 = false).
  { unfold handle in Hh1. destruct (prelock E q); [|congruence]. destruct (s_poison s) eqn:Hps; [congruence|]. destruct (body E s q) as [[c x]|]; [|congruence]. injection Hh1 as <- _. cbn. exact Hps. }
  rewrite Hnp in Hp. split; [|split; [|split; [|split]]].
  - apply (same_server E s [q] m s1 Hi Hid Hbits); [congruence|apply Hco; exact Hp].
  - destruct (m_locked m) eqn:Hl; [|reflexivity]. destruct (i_held _ _ _ _ Hi Hl) as (i & t & Ht). rewrite Hst in Ht. destruct i as [|[|i]]; discriminate.
  - apply (i_thr _ _ _ _ Hi).
  - exact H16.
  - rewrite Hst. constructor; [eauto|constructor].
Qed.
Definition later (m' m : machine) : Prop := machine_step E m m'.
Lemma idle_acc m s : idle m s -> Acc later m.
Proof. intros H. constructor. intros m' Hs. exfalso. exact (idle_stuck _ _ _ H Hs). Qed.
Lemma cinv_acc s q m : cinv s q m -> Acc later m.
Proof.
  remember (total rank (m_stages m)) as a eqn:Ha. remember (total (effort E) (m_stages m)) as b eqn:Hb. revert b m Ha Hb. induction a as [a IHa] using lt_wf_ind. induction b as [b IHb] using lt_wf_ind. intros m Ha Hb Hc.
  constructor. intros m' Hs. pose proof (cinv_step _ _ _ _ Hc Hs) as Hc'. destruct Hs as [i Hs]. destruct (step_down E Hok s [q] m i m' (ci_inv _ _ _ Hc) Hs) as [H|[H1 H2]].
  - eapply IHa; [|reflexivity|reflexivity|exact Hc']. lia.
  - eapply IHb; [|lia|reflexivity|exact Hc']. lia.
Qed.

(** *** the whole system *)
Context {A : Type}.
Definition dview (y y' : system A) : Prop :=
  match y_driver y with
  | Busy (PDone _) => False
  | Busy (PCompute t k) =>
      (exists thr' t', step E (y_threads y) t thr' t' /\ y' = Build_system (Busy (PCompute t' k)) thr' (y_m0 y) (y_m1 y)) \/
      (exists b, t = TDone (Ret b) /\ y' = Build_system (Busy (k b)) (y_threads y) (y_m0 y) (y_m1 y)) \/
      (exists e, t = TDone (Panic e) /\ y' = Build_system (Busy (PDone (Panic e))) (y_threads y) (y_m0 y) (y_m1 y))
  | Busy (PAsk q0 q1 k) => y' = Build_system (Awaiting k) (y_threads y) (receive (y_m0 y) q0) (receive (y_m1 y) q1)
  | Awaiting k =>
      (exists r0 r1, m_stages (y_m0 y) = [Answered (Ret r0)] /\ m_stages (y_m1 y) = [Answered (Ret r1)] /\ y' = Build_system (Busy (k r0 r1)) (y_threads y) (y_m0 y) (y_m1 y)) \/
      (exists e, (m_stages (y_m0 y) = [Answered (Panic e)] \/ m_stages (y_m1 y) = [Answered (Panic e)]) /\ y' = Build_system (Busy (PDone (Panic e))) (y_threads y) (y_m0 y) (y_m1 y))
  end.
Lemma driver_view y y' : driver_step E y y' -> dview y y'.
Proof. destruct 1; unfold dview; cbn; eauto 8. Qed.
Lemma system_view y y' : system_step E y y' -> dview y y' \/
  (exists m0', machine_step E (y_m0 y) m0' /\ y' = Build_system (y_driver y) (y_threads y) m0' (y_m1 y)) \/
  (exists m1', machine_step E (y_m1 y) m1' /\ y' = Build_system (y_driver y) (y_threads y) (y_m0 y) m1').
Proof. destruct 1; [left; apply driver_view; assumption|right; left; cbn; eauto|right; right; cbn; eauto]. Qed.

Definition sinv (X : outcome (server * server * A)) (y : system A) : Prop :=
  ok_threads (y_threads y) /\
  ((exists p s0 s1, y_driver y = Busy p /\ idle (y_m0 y) s0 /\ idle (y_m1 y) s1 /\ fine E p /\ same_outcome (interp E p s0 s1) X) \/
   (exists k q0 q1 s0 s1, y_driver y = Awaiting k /\ cinv s0 q0 (y_m0 y) /\ cinv s1 q1 (y_m1 y) /\ fine E (PAsk q0 q1 k) /\ same_outcome (interp E (PAsk q0 q1 k) s0 s1) X) \/
   (exists e e' q0 q1 s0 s1, y_driver y = Busy (PDone (Panic e)) /\ X = Panic e' /\ cinv s0 q0 (y_m0 y) /\ cinv s1 q1 (y_m1 y))).

Lemma same_panic B (a : outcome B) X e : same_outcome a X -> a = Panic e -> exists e', X = Panic e'.
Proof. intros H ->. destruct X; cbn in H; [discriminate|eauto]. Qed.
Lemma call2_panic s0 s1 q0 q1 e : snd (handle E s0 q0) = Panic e \/ snd (handle E s1 q1) = Panic e -> exists e', call2 E s0 s1 q0 q1 = Panic e'.
Proof. unfold call2. destruct (handle E s0 q0) as [t0 a0]. destruct (handle E s1 q1) as [t1 a1]. cbn [snd]. intros [-> | ->]; [cbn; eauto|]. destruct a0; cbn; eauto. Qed.
Lemma sinv_step X y y' : sinv X y -> system_step E y y' -> sinv X y'.
Proof.
  intros [Ht Hy] Hs. apply system_view in Hs. destruct Hs as [Hd|[(m0' & Hm & ->)|(m1' & Hm & ->)]].
  - unfold dview in Hd. destruct Hy as [(p & s0 & s1 & Hp & H0 & H1 & Hf & Hx)|[(k & q0 & q1 & s0 & s1 & Hp & H0 & H1 & Hf & Hx)|(e & e' & q0 & q1 & s0 & s1 & Hp & _)]]; rewrite Hp in Hd.
    + destruct p as [o|B t k|q0 q1 k]; [contradiction| |].
      * cbn [fine interp] in Hf, Hx. destruct Hf as [Hg Hk]. destruct Hd as [(thr' & t' & Hst & ->)|[(b & -> & ->)|(e & -> & ->)]].
        -- destruct (step_ok E Hok _ _ _ _ _ Hg Ht Hst) as (Ht' & Hg' & _ & Hsm). split; [exact Ht'|]. left. cbn. exists (PCompute t' k), s0, s1. split; [reflexivity|]. split; [exact H0|]. split; [exact H1|].
           assert (Hb : forall b, alone E t' = Ret b -> alone E t = Ret b) by (intros b Hb; destruct (alone E t); cbn in Hsm; [congruence|destruct Hsm; congruence]).
           split; [cbn [fine]; split; [exact Hg'|intros b Hb'; apply Hk; apply Hb; exact Hb']|]. cbn [interp]. eapply same_trans; [|exact Hx].
           destruct (alone E t) as [b|e]; cbn in Hsm; [rewrite Hsm; apply same_refl|]. destruct Hsm as [e' ->]. cbn. eauto.
        -- split; [exact Ht|]. left. cbn. exists (k b), s0, s1. split; [reflexivity|]. split; [exact H0|]. split; [exact H1|]. split; [apply Hk; reflexivity|exact Hx].
        -- split; [exact Ht|]. left. cbn. exists (PDone (Panic e)), s0, s1. split; [reflexivity|]. split; [exact H0|]. split; [exact H1|]. split; [exact I|exact Hx].
      * subst y'. split; [exact Ht|]. right. left. cbn. exists k, q0, q1, s0, s1. split; [reflexivity|]. pose proof Hf as (Hr0 & Hr1 & _). split; [apply receive_cinv; assumption|]. split; [apply receive_cinv; assumption|]. split; assumption.
    + destruct Hd as [(r0 & r1 & Ha0 & Ha1 & ->)|(e & Ha & ->)].
      * destruct (cinv_answer _ _ _ _ H0 Ha0) as [Hr0 Hi0]. destruct (cinv_answer _ _ _ _ H1 Ha1) as [Hr1 Hi1]. split; [exact Ht|]. left. cbn. exists (k r0 r1), (fst (handle E s0 q0)), (fst (handle E s1 q1)).
        split; [reflexivity|]. split; [exact Hi0|]. split; [exact Hi1|]. split; [apply Hf|]. cbn [interp] in Hx. unfold call2 in Hx. destruct (handle E s0 q0) as [t0 a0]. destruct (handle E s1 q1) as [t1 a1]. cbn [fst snd] in *. subst a0 a1. exact Hx.
      * assert (Hp' : exists e', snd (handle E s0 q0) = Panic e' \/ snd (handle E s1 q1) = Panic e').
        { destruct Ha as [Ha|Ha]; [destruct (cinv_answer _ _ _ _ H0 Ha) as [e' He]|destruct (cinv_answer _ _ _ _ H1 Ha) as [e' He]]; eauto. }
        destruct Hp' as [e1 He1]. destruct (call2_panic _ _ _ _ _ He1) as [e2 He2]. cbn [interp] in Hx. rewrite He2 in Hx. destruct (same_panic _ _ _ _ Hx eq_refl) as [e3 He3].
        split; [exact Ht|]. right. right. cbn. exists e, e3, q0, q1, s0, s1. auto.
    + contradiction.
  - split; [exact Ht|]. destruct Hy as [(p & s0 & s1 & Hp & H0 & H1 & Hf & Hx)|[(k & q0 & q1 & s0 & s1 & Hp & H0 & H1 & Hf & Hx)|(e & e' & q0 & q1 & s0 & s1 & Hp & He & H0 & H1)]].
    + exfalso. exact (idle_stuck _ _ _ H0 Hm).
    + right. left. cbn. exists k, q0, q1, s0, s1. split; [exact Hp|]. split; [exact (cinv_step _ _ _ _ H0 Hm)|]. auto.
    + right. right. cbn. exists e, e', q0, q1, s0, s1. split; [exact Hp|]. split; [exact He|]. split; [exact (cinv_step _ _ _ _ H0 Hm)|exact H1].
  - split; [exact Ht|]. destruct Hy as [(p & s0 & s1 & Hp & H0 & H1 & Hf & Hx)|[(k & q0 & q1 & s0 & s1 & Hp & H0 & H1 & Hf & Hx)|(e & e' & q0 & q1 & s0 & s1 & Hp & He & H0 & H1)]].
    + exfalso. exact (idle_stuck _ _ _ H1 Hm).
    + right. left. cbn. exists k, q0, q1, s0, s1. split; [exact Hp|]. split; [exact H0|]. split; [exact (cinv_step _ _ _ _ H1 Hm)|]. auto.
    + right. right. cbn. exists e, e', q0, q1, s0, s1. split; [exact Hp|]. split; [exact He|]. split; [exact H0|exact (cinv_step _ _ _ _ H1 Hm)].
Qed.
Lemma sinv_steps X y y' : system_steps E y y' -> sinv X y -> sinv X y'.
Proof. induction 1 as [y|y y1 y2 H1 H2 IH]; intros H; [exact H|]. apply IH. eapply sinv_step; eassumption. Qed.
Lemma sinv_free X y : sinv X y -> (exists o, y_driver y = Busy (PDone o)) \/ exists y', system_step E y y'.
Proof.
  intros [Ht Hy]. destruct y as [d thr m0 m1]. cbn [y_driver y_threads y_m0 y_m1] in *.
  destruct Hy as [(p & s0 & s1 & -> & H0 & H1 & Hf & Hx)|[(k & q0 & q1 & s0 & s1 & -> & H0 & H1 & Hf & Hx)|(e & e' & q0 & q1 & s0 & s1 & -> & _)]]; [| |eauto].
  - destruct p as [o|B t k|q0 q1 k]; [eauto| |].
    + right. destruct Hf as [Hg _]. destruct (progress E Hok _ t thr Hg Ht) as [[[b|e] ->]|(thr' & t' & Hs)]; eexists; apply y_by_driver; [apply d_result|apply d_panic|apply d_compute; exact Hs].
    + right. eexists. apply y_by_driver. apply d_send.
  - right. destruct (cinv_progress _ _ _ H0) as [[o0 Ho0]|[m' Hm]]; [|eexists; apply y_by_0; exact Hm]. destruct (cinv_progress _ _ _ H1) as [[o1 Ho1]|[m' Hm]]; [|eexists; apply y_by_1; exact Hm].
    destruct o0 as [r0|e]; [|eexists; apply y_by_driver; eapply d_failed0; exact Ho0]. destruct o1 as [r1|e]; [|eexists; apply y_by_driver; eapply d_failed1; exact Ho1].
    eexists. apply y_by_driver. eapply d_answers; eassumption.
Qed.

Definition slater (y' y : system A) : Prop := system_step E y y'.
Lemma done_acc o thr : forall m0, Acc later m0 -> forall m1, Acc later m1 -> Acc slater (Build_system (Busy (PDone o)) thr m0 m1).
Proof.
  intros m0 H0. induction H0 as [m0 A0 IH0]. intros m1 H1. induction H1 as [m1 A1 IH1]. constructor. intros y' Hs. apply system_view in Hs. destruct Hs as [Hd|[(m0' & Hm & ->)|(m1' & Hm & ->)]].
  - contradiction.
  - apply IH0; [exact Hm|constructor; exact A1].
  - apply IH1. exact Hm.
Qed.
Lemma await_acc k q0 q1 s0 s1 thr : (forall r0 r1 m0 m1 t0 t1, idle m0 t0 -> idle m1 t1 -> Acc slater (Build_system (Busy (k r0 r1)) thr m0 m1)) ->
  forall m0, Acc later m0 -> forall m1, Acc later m1 -> cinv s0 q0 m0 -> cinv s1 q1 m1 -> Acc slater (Build_system (Awaiting k) thr m0 m1).
Proof.
  intros Hk m0 H0. induction H0 as [m0 A0 IH0]. intros m1 H1. induction H1 as [m1 A1 IH1]. intros C0 C1. constructor. intros y' Hs. apply system_view in Hs. destruct Hs as [Hd|[(m0' & Hm & ->)|(m1' & Hm & ->)]].
  - unfold dview in Hd. cbn [y_driver y_threads y_m0 y_m1] in Hd. destruct Hd as [(r0 & r1 & Ha0 & Ha1 & ->)|(e & _ & ->)].
    + destruct (cinv_answer _ _ _ _ C0 Ha0) as [_ I0]. destruct (cinv_answer _ _ _ _ C1 Ha1) as [_ I1]. eapply Hk; eassumption.
    + apply done_acc; constructor; assumption.
  - apply IH0; [exact Hm|constructor; exact A1|exact (cinv_step _ _ _ _ C0 Hm)|exact C1].
  - apply IH1; [exact Hm|exact C0|exact (cinv_step _ _ _ _ C1 Hm)].
Qed.
Lemma proc_acc (p : proc A) : fine E p -> forall thr m0 m1 s0 s1, ok_threads thr -> idle m0 s0 -> idle m1 s1 -> Acc slater (Build_system (Busy p) thr m0 m1).
Proof.
  induction p as [o|B t k IH|q0 q1 k IH]; intros Hf thr m0 m1 s0 s1 Ht H0 H1.
  - eapply done_acc; eapply idle_acc; eassumption.
  - destruct Hf as [Hg Hk]. remember (cost E t) as n eqn:Hn. revert t thr Hn Hg Hk Ht. induction n as [n IHn] using lt_wf_ind. intros t thr Hn Hg Hk Ht. constructor. intros y' Hs. apply system_view in Hs. destruct Hs as [Hd|[(m' & Hm & ->)|(m' & Hm & ->)]].
    + unfold dview in Hd. cbn [y_driver y_threads y_m0 y_m1] in Hd. destruct Hd as [(thr' & t' & Hst & ->)|[(b & -> & ->)|(e & -> & ->)]].
      * destruct (step_ok E Hok _ _ _ _ _ Hg Ht Hst) as (Ht' & Hg' & Hc & Hsm). eapply IHn; [|reflexivity|exact Hg'| |exact Ht']; [lia|].
        intros b Hb. apply Hk. destruct (alone E t); cbn in Hsm; [congruence|destruct Hsm; congruence].
      * eapply IH; [apply Hk; reflexivity|exact Ht|exact H0|exact H1].
      * eapply done_acc; eapply idle_acc; eassumption.
    + exfalso. exact (idle_stuck _ _ _ H0 Hm).
    + exfalso. exact (idle_stuck _ _ _ H1 Hm).
  - destruct Hf as (Hr0 & Hr1 & Hk). constructor. intros y' Hs. apply system_view in Hs. destruct Hs as [Hd|[(m' & Hm & ->)|(m' & Hm & ->)]].
    + unfold dview in Hd. cbn [y_driver y_threads y_m0 y_m1] in Hd. subst y'. pose proof (receive_cinv _ _ _ H0 Hr0) as C0. pose proof (receive_cinv _ _ _ H1 Hr1) as C1.
      eapply await_acc; [|eapply cinv_acc; exact C0|eapply cinv_acc; exact C1|exact C0|exact C1]. intros r0 r1 n0 n1 t0 t1 I0 I1. eapply IH; [apply Hk|exact Ht|exact I0|exact I1].
    + exfalso. exact (idle_stuck _ _ _ H0 Hm).
    + exfalso. exact (idle_stuck _ _ _ H1 Hm).
Qed.
Lemma acc_finite (f : nat -> system A) : Acc slater (f 0) -> ~ forall n, system_step E (f n) (f (S n)).
Proof.
  intros H. remember (f 0) as y eqn:Hy. revert f Hy. induction H as [y _ IH]. intros f -> Hf. apply (IH (f 1) (Hf 0) (fun n => f (S n)) eq_refl). intros n. apply Hf.
Qed.
Lemma system_runs (p : proc A) s0 s1 : coll16 (s_coll s0) -> coll16 (s_coll s1) -> fine E p -> runs_as E p s0 s1 (interp E p s0 s1).
Proof.
  intros Hc0 Hc1 Hf thr thr0 thr1 Ht Ht0 Ht1 start.
  assert (Hidle : forall s th, coll16 (s_coll s) -> ok_threads th -> idle (machine_start s th []) s) by (intros [a b c d] th Hc Hth; split; [reflexivity|]; split; [reflexivity|]; split; [exact Hth|]; split; [exact Hc|constructor]).
  pose proof (Hidle s0 thr0 Hc0 Ht0) as H0. pose proof (Hidle s1 thr1 Hc1 Ht1) as H1.
  assert (Hinv : sinv (interp E p s0 s1) start) by (split; [exact Ht|]; left; exists p, s0, s1; split; [reflexivity|]; split; [exact H0|]; split; [exact H1|]; split; [exact Hf|apply same_refl]).
  split; [|split].
  - intros y Hy. eapply sinv_free. eapply sinv_steps; eassumption.
  - intros g Hg. apply acc_finite. rewrite Hg. eapply proc_acc; eassumption.
  - intros y o Hy Hd. pose proof (sinv_steps _ _ _ Hy Hinv) as [_ Hs]. clear Hinv Hy. rewrite Hd in Hs.
    destruct Hs as [(p' & t0 & t1 & Hp & I0 & I1 & _ & Hx)|[(k & q0 & q1 & t0 & t1 & Hp & _)|(e & e' & q0 & q1 & t0 & t1 & Hp & Hx & _)]].
    + injection Hp as <-. destruct I0 as [I0 _]. destruct I1 as [I1 _]. destruct (interp E p s0 s1) as [[[u0 u1] a]|e]; cbn [interp same_outcome] in Hx.
      * destruct o as [b|e]; cbn [bind] in Hx; [|discriminate]. injection Hx as <- <- <-. auto.
      * destruct Hx as [e' He]. destruct o as [b|e2]; [discriminate|eauto].
    + discriminate.
    + injection Hp as ->. rewrite Hx. eauto.
Qed.
End Machines.

Lemma system_whh : forall E fuel cfg clients vk chs s0 s1, env_ok E -> coll16 (s_coll s0) -> coll16 (s_coll s1) -> Forall client16 clients ->
  runs_as E (main_whh_p fuel E cfg clients vk chs) s0 s1 (main_whh fuel E cfg clients vk chs s0 s1).
Proof. intros. rewrite <- interp_main_whh. apply system_runs; [assumption..|]. apply fine_main_whh; assumption. Qed.
Lemma system_abm : forall E fuel cfg clients vk chs samples order s0 s1, env_ok E -> coll16 (s_coll s0) -> coll16 (s_coll s1) -> Forall client16 clients ->
  runs_as E (main_abm_p fuel E cfg clients vk chs samples order) s0 s1 (main_abm fuel E cfg clients vk chs samples order s0 s1).
Proof. intros. rewrite <- interp_main_abm. apply system_runs; [assumption..|]. apply fine_main_abm; assumption. Qed.
Lemma system_pm : forall E fuel shard cfg clients vk chs s0 s1, env_ok E -> coll16 (s_coll s0) -> coll16 (s_coll s1) ->
  runs_as E (main_pm_p fuel E shard cfg clients vk chs) s0 s1 (main_pm fuel E shard cfg clients vk chs s0 s1).
Proof. intros. rewrite <- interp_main_pm. apply system_runs; [assumption..|]. apply fine_main_pm; assumption. Qed.
