(** Proofs for C83. *)
From Verif Require Import Base BaseFacts Field Util UtilFacts Env Prg Vidpf Merkle Collect Server ServerFacts Driver DriverFacts Modes SpecPrg Sched SpecSched SchedFacts SchedRun System SystemFacts
  SpecVidpf SpecLevel SpecWhh SpecMetrics SpecModes CollectFacts VidpfFacts MetricsFacts PmFacts LevelFacts ModesFacts ModesMain PmMain SpecTamper.
From Coq Require Import Lia Permutation.

Section Tamper.
Context (E : env) (who : bool) (alter : request -> response -> response).
Notation run := (tampered E who alter).
Lemma tam_bind A B (p : proc A) (f : A -> proc B) : forall s0 s1, run (pbind p f) s0 s1 = let! '(s0, s1, a) := run p s0 s1 in run (f a) s0 s1.
Proof.
  induction p as [o|C t k IH|q0 q1 k IH]; intros s0 s1; cbn [pbind tampered].
  - destruct o; reflexivity.
  - destruct (alone E t) as [c|e]; cbn [bind]; [apply IH|reflexivity].
  - destruct (call2 E s0 s1 q0 q1) as [[[t0 t1] [r0 r1]]|e]; cbn [bind]; [apply IH|reflexivity].
Qed.
Lemma tam_pure A B (o : outcome A) (f : A -> proc B) s0 s1 : run (pbind (PDone o) f) s0 s1 = let! a := o in run (f a) s0 s1.
Proof. destruct o; reflexivity. Qed.
(** a part of the driver whose answers are left alone *)
Fixpoint quiet {A} (p : proc A) : Prop :=
  match p with
  | PDone _ => True
  | PCompute t k => forall b, quiet (k b)
  | PAsk q0 q1 k => (forall r, alter q0 r = r) /\ (forall r, alter q1 r = r) /\ forall r0 r1, quiet (k r0 r1)
  end.
Lemma quiet_same A (p : proc A) : quiet p -> forall s0 s1, run p s0 s1 = interp E p s0 s1.
Proof.
  induction p as [o|C t k IH|q0 q1 k IH]; intros Hq s0 s1; cbn [tampered interp].
  - reflexivity.
  - destruct (alone E t) as [c|e]; cbn [bind]; [apply IH, Hq|reflexivity].
  - destruct Hq as (H0 & H1 & Hk). destruct (call2 E s0 s1 q0 q1) as [[[t0 t1] [r0 r1]]|e]; cbn [bind]; [|reflexivity]. rewrite H0, H1.
    replace (if who then r0 else r0) with r0 by (destruct who; reflexivity). replace (if who then r1 else r1) with r1 by (destruct who; reflexivity). apply IH, Hk.
Qed.
Lemma quiet_bind A B (p : proc A) (f : A -> proc B) : quiet p -> (forall a, quiet (f a)) -> quiet (pbind p f).
Proof.
  intros Hp Hf. induction p as [o|C t k IH|q0 q1 k IH]; cbn [pbind quiet].
  - destruct o; [apply Hf|exact I].
  - intros b. apply IH, Hp.
  - destruct Hp as (H0 & H1 & Hk). split; [exact H0|]. split; [exact H1|]. intros r0 r1. apply IH, Hk.
Qed.
Hypothesis Hreset : forall vk n r, alter (QReset vk n) r = r.
Hypothesis Hadd : forall rs r, alter (QAddReportShares rs) r = r.
Lemma quiet_upload fuel cfg rs chs : quiet (upload_p fuel cfg rs chs).
Proof.
  unfold upload_p. apply quiet_bind; [exact I|]. intros sizes. revert chs. induction sizes as [|n sizes IH]; intros chs; cbn [upload_batches_p]; [exact I|].
  apply quiet_bind; [|intros _; apply IH]. unfold add_reports_p. apply quiet_bind; [exact I|]. intros ups. cbn. split; [intros r; apply Hadd|]. split; [intros r; apply Hadd|]. intros _ _. exact I.
Qed.
Lemma quiet_reset cfg vk : quiet (reset_p cfg vk).
Proof. cbn. split; [intros r; apply Hreset|]. split; [intros r; apply Hreset|]. intros _ _. exact I. Qed.
End Tamper.
Arguments quiet alter {A}.

(** *** lists *)
Definition mapi {A B} (s : nat) (f : nat -> A -> B) (l : list A) : list B := map (fun ia => f (fst ia) (snd ia)) (tagged s l).
Lemma mapi_cons {A B} s (f : nat -> A -> B) x l : mapi s f (x :: l) = f s x :: mapi (S s) f l.  Proof. reflexivity. Qed.
Lemma mapi_length {A B} (f : nat -> A -> B) l : forall s, length (mapi s f l) = length l.
Proof. induction l as [|x l IH]; intros s; [reflexivity|]. rewrite mapi_cons. cbn [length]. rewrite IH. reflexivity. Qed.
Lemma raised_mapi d v : raised d v = mapi 0 (fun j x => fadd x (d j)) v.  Proof. reflexivity. Qed.
Lemma raised_length d v : length (raised d v) = length v.  Proof. rewrite raised_mapi. apply mapi_length. Qed.
Lemma vec_left d : forall a s b, vec_add (mapi s (fun j x => fadd x (d j)) a) b = mapi s (fun j x => fadd x (d j)) (vec_add a b).
Proof.
  induction a as [|x a IH]; intros s b; [reflexivity|]. destruct b as [|y b]; [reflexivity|]. rewrite mapi_cons. cbn [vec_add]. rewrite mapi_cons, IH. f_equal. ring.
Qed.
Lemma vec_right d : forall a s b, length a = length b -> vec_add a (mapi s (fun j x => fadd x (d j)) b) = mapi s (fun j x => fadd x (d j)) (vec_add a b).
Proof.
  induction a as [|x a IH]; intros s b H; [reflexivity|]. destruct b as [|y b]; [discriminate|]. rewrite mapi_cons. cbn [vec_add]. rewrite mapi_cons, IH by (cbn in H; lia). f_equal. ring.
Qed.
Lemma all_left d : forall a s b, add_all (mapi s (fun i v => raised (d i) v) a) b = mapi s (fun i v => raised (d i) v) (add_all a b).
Proof.
  induction a as [|x a IH]; intros s b; [reflexivity|]. destruct b as [|y b]; [reflexivity|]. rewrite mapi_cons. cbn [add_all]. rewrite mapi_cons, IH. f_equal. apply vec_left.
Qed.
Lemma all_right d n : forall a s b, length a = length b -> Forall (fun v => length v = n) a -> Forall (fun v => length v = n) b ->
  add_all a (mapi s (fun i v => raised (d i) v) b) = mapi s (fun i v => raised (d i) v) (add_all a b).
Proof.
  induction a as [|x a IH]; intros s b H Ha Hb; [reflexivity|]. destruct b as [|y b]; [discriminate|]. inversion Ha. inversion Hb. subst. rewrite mapi_cons. cbn [add_all]. rewrite mapi_cons, IH; [|cbn in H; lia|assumption|assumption].
  f_equal. apply vec_right. congruence.
Qed.
Lemma table_left {A} d : forall (attrs : list A) s rows,
  combine attrs (mapi s (fun i v => raised (d i) v) rows) = mapi s (fun i (r : A * list fld) => (fst r, raised (d i) (snd r))) (combine attrs rows).
Proof. induction attrs as [|a attrs IH]; intros s rows; [reflexivity|]. destruct rows as [|v rows]; [reflexivity|]. rewrite mapi_cons. cbn [combine]. rewrite mapi_cons, IH. reflexivity. Qed.
Lemma each_cons {T} b (ch : nat -> T -> T) : forall ts s, mapi s (fun k t => ch (k * b) t) ts = mapi 0 (fun k t => ch (s * b + k * b) t) ts.
Proof.
  assert (H : forall ts s u, mapi (s + u) (fun k t => ch (k * b) t) ts = mapi u (fun k t => ch (s * b + k * b) t) ts).
  { induction ts as [|t ts IH]; intros s u; [reflexivity|]. rewrite !mapi_cons. f_equal; [f_equal; lia|]. replace (S (s + u)) with (s + S u) by lia. apply IH. }
  intros ts s. specialize (H ts s 0). rewrite Nat.add_0_r in H. exact H.
Qed.

Lemma starts_spec n b starts : step_by n b = Ret starts -> starts = map (fun k => (0 + k) * b) (seq 0 (length starts)).
Proof.
  unfold step_by. destruct (b =? 0) eqn:Hb; [discriminate|]. apply Nat.eqb_neq in Hb. intros H. injection H as <-. rewrite (steps_spec {| cfg_bits := None; cfg_hist := 0; cfg_add_batch := 0; cfg_query_batch := 0; cfg_thr := 0%Z |} 0 eq_refl) by lia. rewrite map_length, seq_length. reflexivity.
Qed.

(** *** attribute-based metrics *)
Section Attributes.
Context (E : env) (who : bool) (d : nat -> nat -> nat -> fld).
Notation run := (tampered E who (add_to_tables d)).

Definition lens (n : nat) (s0 s1 : server) : Prop := c_len (s_coll s0) = n /\ c_len (s_coll s1) = n.
Lemma add_all_shape n m : forall agg vals, length agg = m -> Forall (fun v => length v = n) agg -> length (add_all agg vals) = m /\ Forall (fun v => length v = n) (add_all agg vals).
Proof.
  intros agg. revert m. induction agg as [|a agg IH]; intros m vals Hl Hf; [split; assumption|]. destruct vals as [|v vals]; [split; assumption|]. inversion Hf. subst. cbn [add_all length].
  destruct (IH _ vals eq_refl H2) as [L F]. split; [rewrite L; reflexivity|]. constructor; [apply vec_add_length|exact F].
Qed.
Lemma result_shape c rej n c' agg : abm_result E c rej n = Ret (c', agg) -> c_len c' = c_len c /\ length agg = n /\ Forall (fun v => length v = c_len c) agg.
Proof.
  unfold abm_result. destruct (abm_reject E (c_abm c) rej) as [m|e]; cbn [bind]; [|discriminate]. intros H. injection H as <- <-. split; [reflexivity|].
  assert (G : forall l acc, length acc = n -> Forall (fun v => length v = c_len c) acc ->
    length (fold_left (fun agg kv => add_all agg (snd kv)) (l : list (nat * list (list fld))) acc) = n /\ Forall (fun v => length v = c_len c) (fold_left (fun agg kv => add_all agg (snd kv)) l acc)).
  { induction l as [|kv l IH]; intros acc Hl Hf; [split; assumption|]. cbn [fold_left]. destruct (add_all_shape _ _ acc (snd kv) Hl Hf). apply IH; assumption. }
  apply G; [apply repeat_length|]. apply Forall_forall. intros v Hv. apply repeat_spec in Hv. subst v. apply repeat_length.
Qed.
Lemma validate_len c attrs a b c' v : abm_validate E c attrs a b = Ret (c', v) -> c_len c' = c_len c.
Proof. unfold abm_validate. intros H. repeat match type of H with (if ?x then _ else _) = _ => destruct x; [discriminate|] end. bret H as rs Hrs. injection H as <- <-. reflexivity. Qed.
Lemma call_ret s0 s1 q0 q1 t0 t1 r0 r1 : call2 E s0 s1 q0 q1 = Ret (t0, t1, (r0, r1)) -> handle E s0 q0 = (t0, Ret r0) /\ handle E s1 q1 = (t1, Ret r1).
Proof. unfold call2. destruct (handle E s0 q0) as [u0 [x0|e0]]; destruct (handle E s1 q1) as [u1 [x1|e1]]; cbn [bind]; intros H; try discriminate. injection H as <- <- <- <-. auto. Qed.
Lemma handle_result s rej n a b t v : handle E s (QAbmResult rej n a b) = (t, Ret (AFields v)) ->
  c_len (s_coll t) = c_len (s_coll s) /\ length v = n /\ Forall (fun x => length x = c_len (s_coll s)) v.
Proof.
  intros H. apply handle_ret in H. destruct H as (_ & _ & c & Hb & ->). cbn [body] in Hb. destruct (abm_result E (s_coll s) rej n) as [[c' agg]|e] eqn:Hr; cbn [bind] in Hb; [|discriminate].
  injection Hb as <- <-. exact (result_shape _ _ _ _ _ Hr).
Qed.
Lemma handle_validate s attrs a b t r : handle E s (QAbmValidate attrs a b) = (t, Ret r) -> c_len (s_coll t) = c_len (s_coll s).
Proof.
  intros H. apply handle_ret in H. destruct H as (_ & _ & c & Hb & ->). cbn [body] in Hb. destruct (abm_validate E (s_coll s) attrs a b) as [[c' agg]|e] eqn:Hr; cbn [bind] in Hb; [|discriminate].
  injection Hb as <- <-. exact (validate_len _ _ _ _ _ _ Hr).
Qed.

Lemma tam_batch n cfg attrs start stop s0 s1 : lens n s0 s1 ->
  run (abm_batch_p E cfg attrs start stop) s0 s1 = (let! '(t0, t1, t) := abm_batch E cfg s0 s1 attrs start stop in Ret (t0, t1, raised_table (d start) t)) /\
  forall t0 t1 t, abm_batch E cfg s0 s1 attrs start stop = Ret (t0, t1, t) -> lens n t0 t1.
Proof.
  intros [L0 L1]. unfold abm_batch_p, abm_batch. cbv zeta. cbn [tampered]. destruct (call2 E s0 s1 _ _) as [[[t0 t1] [r0 r1]]|e] eqn:Hc; cbn [bind]; [|split; [reflexivity|discriminate]].
  apply call_ret in Hc. destruct Hc as [C0 C1]. apply handle_validate in C0, C1.
  replace (if who then add_to_tables d (QAbmValidate attrs start stop) r0 else r0) with r0 by (destruct who; reflexivity).
  replace (if who then r1 else add_to_tables d (QAbmValidate attrs start stop) r1) with r1 by (destruct who; reflexivity).
  destruct r0 as [| | | | |p0| |]; try (split; [reflexivity|discriminate]). destruct r1 as [| | | | |p1| |]; try (split; [reflexivity|discriminate]).
  rewrite tam_pure. destruct (assert_ _); cbn [bind]; [|split; [reflexivity|discriminate]]. rewrite tam_pure. destruct (assert_ _); cbn [bind]; [|split; [reflexivity|discriminate]].
  rewrite tam_pure. destruct (abm_rejected E (cfg_hist cfg) start _) as [rej|e]; cbn [bind]; [|split; [reflexivity|discriminate]].
  cbn [tampered]. destruct (call2 E t0 t1 _ _) as [[[u0 u1] [x0 x1]]|e] eqn:Hc; cbn [bind]; [|split; [reflexivity|discriminate]]. apply call_ret in Hc. destruct Hc as [D0 D1].
  destruct x0 as [|v0| | | | | |]; try (destruct who; split; (reflexivity || discriminate)). destruct x1 as [|v1| | | | | |]; try (destruct who; split; (reflexivity || discriminate)).
  apply handle_result in D0, D1. destruct D0 as (D0 & N0 & F0). destruct D1 as (D1 & N1 & F1). split; [|intros y0 y1 y H; injection H as <- <- <-; split; congruence].
  rewrite C0, L0 in F0. rewrite C1, L1 in F1.
  assert (G : forall l0 l1, add_all l0 l1 = mapi 0 (fun i v => raised (d start i) v) (add_all v0 v1) -> combine attrs (add_all l0 l1) = raised_table (d start) (combine attrs (add_all v0 v1))).
  { intros l0 l1 ->. apply table_left. }
  destruct who; cbn [add_to_tables tampered bind]; do 2 f_equal; apply G; [apply all_left|apply (all_right _ n); congruence].
Qed.
Lemma tam_batches n cfg attrs num : forall starts s0 s1 s, lens n s0 s1 -> starts = map (fun k => (s + k) * cfg_query_batch cfg) (seq 0 (length starts)) ->
  run (abm_batches_p E cfg attrs num starts) s0 s1 =
  let! '(t0, t1, ts) := abm_batches E cfg s0 s1 attrs num starts in Ret (t0, t1, mapi s (fun k t => raised_table (d (k * cfg_query_batch cfg)) t) ts).
Proof.
  induction starts as [|st starts IH]; intros s0 s1 s Hl Hs; cbn [abm_batches_p abm_batches]; [reflexivity|]. cbv zeta. cbn [length seq map] in Hs. injection Hs as Hst Hs. rewrite Nat.add_0_r in Hst.
  rewrite tam_bind. destruct (tam_batch n cfg attrs st (Nat.min num (st + cfg_query_batch cfg)) s0 s1 Hl) as [-> Hkeep].
  destruct (abm_batch E cfg s0 s1 attrs st _) as [[[t0 t1] t]|e]; cbn [bind]; [|reflexivity]. specialize (Hkeep _ _ _ eq_refl).
  rewrite tam_bind, (IH t0 t1 (S s) Hkeep).
  - destruct (abm_batches E cfg t0 t1 attrs num starts) as [[[u0 u1] ts]|e]; cbn [bind]; [|reflexivity]. cbn [tampered bind]. rewrite mapi_cons. do 3 f_equal. rewrite Hst. reflexivity.
  - rewrite Hs at 1. rewrite <- seq_shift, map_map. apply map_ext. intros k. f_equal. lia.
Qed.
Lemma upload_len fuel cfg rs chs s0 s1 t0 t1 n : lens n s0 s1 -> upload fuel E cfg rs chs s0 s1 = Ret (t0, t1) -> lens n t0 t1.
Proof.
  unfold upload. intros Hl H. bret H as sizes Hz. clear Hz. revert chs s0 s1 Hl H. induction sizes as [|k sizes IH]; intros chs s0 s1 Hl H; cbn [upload_batches] in H; [injection H as <- <-; exact Hl|].
  destruct (add_reports E rs (firstn k chs) s0 s1) as [[u0 u1]|e] eqn:Ha; cbn [bind] in H; [|discriminate]. apply (IH _ _ _) in H; [exact H|]. clear -Hl Ha. unfold add_reports in Ha. bret Ha as ups Hu.
  apply call2_done_ret in Ha. destruct Ha as (r0 & r1 & H0 & H1). apply handle_ret in H0, H1. destruct H0 as (_ & _ & c0 & B0 & ->). destruct H1 as (_ & _ & c1 & B1 & ->). cbn [body] in B0, B1. injection B0 as <- _. injection B1 as <- _.
  assert (G : forall l c, c_len (fold_left add_report_share l c) = c_len c) by (induction l as [|r l IH]; intros c; [reflexivity|]; cbn [fold_left]; rewrite IH; reflexivity).
  destruct Hl as [L0 L1]. split; cbn; rewrite G; assumption.
Qed.
Lemma reset_len cfg vk s0 s1 t0 t1 : reset_servers E cfg vk s0 s1 = Ret (t0, t1) -> lens (cfg_hist cfg) t0 t1.
Proof.
  unfold reset_servers. intros Ha. apply call2_done_ret in Ha. destruct Ha as (r0 & r1 & H0 & H1). apply handle_ret in H0, H1. destruct H0 as (_ & _ & c0 & B0 & ->). destruct H1 as (_ & _ & c1 & B1 & ->). cbn [body] in B0, B1.
  destruct (hist_ok (cfg_hist cfg)); [|discriminate]. injection B0 as <- _. injection B1 as <- _. split; reflexivity.
Qed.
Lemma main_tampered fuel cfg clients vk chs samples order s0 s1 :
  run (main_abm_p fuel E cfg clients vk chs samples order) s0 s1 =
  let! '(t0, t1, ts) := main_abm fuel E cfg clients vk chs samples order s0 s1 in Ret (t0, t1, each (cfg_query_batch cfg) (fun start t => raised_table (d start) t) ts).
Proof.
  unfold main_abm_p, main_abm. destruct (negb (hist_ok (cfg_hist cfg))); [reflexivity|]. destruct (length clients =? 0); [reflexivity|]. cbn [tampered]. rewrite (alone_reports E). destruct (mapM (gen_report E (cfg_hist cfg)) clients) as [reports|e]; cbn [bind]; [|reflexivity].
  rewrite tam_bind, (quiet_same E who (add_to_tables d)) by (apply quiet_reset; reflexivity). rewrite interp_reset. destruct (reset_servers E cfg vk s0 s1) as [[t0 t1]|e] eqn:Hr; cbn [bind unit_of]; [|reflexivity]. apply reset_len in Hr.
  rewrite tam_bind, (quiet_same E who (add_to_tables d)) by (apply quiet_upload; reflexivity). rewrite interp_upload. destruct (upload fuel E cfg reports chs t0 t1) as [[u0 u1]|e] eqn:Hu; cbn [bind unit_of]; [|reflexivity]. apply (upload_len _ _ _ _ _ _ _ _ _ Hr) in Hu.
  rewrite tam_pure. destruct (sample_attributes reports samples) as [attrs|e]; cbn [bind]; [|reflexivity]. rewrite tam_pure. unfold run_abm. destruct (step_by (length chs) (cfg_query_batch cfg)) as [starts|e] eqn:Hs; cbn [bind]; [|reflexivity].
  rewrite (tam_batches _ _ _ _ _ _ _ 0 Hu (starts_spec _ _ _ Hs)). destruct (abm_batches E cfg u0 u1 (order attrs) (length chs) starts) as [[[y0 y1] ts]|e]; reflexivity.
Qed.
End Attributes.

(** *** plain metrics *)
Section Histograms.
Context (E : env) (who : bool) (d : nat -> nat -> fld).
Notation run := (tampered E who (add_to_histograms d)).
Lemma unshard_raised len g a0 a1 : p3_unshard len (if who then raised g a0 else a0) (if who then a1 else raised g a1) = option_map (raised_counts g) (p3_unshard len a0 a1).
Proof.
  unfold p3_unshard, p3_aggregate. cbn [fold_left].
  assert (Z0 : length (zeros len) = len) by apply repeat_length. rewrite Z0.
  replace (length (if who then raised g a0 else a0)) with (length a0) by (destruct who; [rewrite raised_length|]; reflexivity).
  destruct (length a0 =? len) eqn:H0; [|reflexivity]. apply Nat.eqb_eq in H0. rewrite !vec_add_length, Z0.
  replace (length (if who then a1 else raised g a1)) with (length a1) by (destruct who; [|rewrite raised_length]; reflexivity).
  destruct (length a1 =? len) eqn:H1; [|reflexivity]. apply Nat.eqb_eq in H1. cbn [option_map]. f_equal.
  assert (G : forall v s, map fval (mapi s (fun j x => fadd x (g j)) v) = mapi s (fun j z => fval (fadd (of_Z z) (g j))) (map fval v)).
  { induction v as [|x v IH]; intros s; [reflexivity|]. rewrite mapi_cons. cbn [map]. rewrite mapi_cons, IH, of_Z_fval. reflexivity. }
  transitivity (map fval (raised g (vec_add (vec_add (zeros len) a0) a1))); [|apply G]. f_equal. rewrite !raised_mapi.
  destruct who; [rewrite vec_right by congruence; apply vec_left|apply vec_right; rewrite vec_add_length; congruence].
Qed.
Lemma pm_tam_batch cfg start stop s0 s1 :
  run (pm_batch_p E cfg start stop) s0 s1 = let! '(t0, t1, h) := pm_batch E cfg s0 s1 start stop in Ret (t0, t1, (raised_counts (d start) (fst h), snd h)).
Proof.
  unfold pm_batch_p, pm_batch. cbv zeta. cbn [tampered]. destruct (call2 E s0 s1 _ _) as [[[t0 t1] [r0 r1]]|e]; cbn [bind]; [|reflexivity].
  replace (if who then add_to_histograms d (QPmValidate start stop) r0 else r0) with r0 by (destruct who; reflexivity).
  replace (if who then r1 else add_to_histograms d (QPmValidate start stop) r1) with r1 by (destruct who; reflexivity).
  destruct r0 as [| | | | | |v0|]; try reflexivity. destruct r1 as [| | | | | |v1|]; try reflexivity. rewrite tam_pure. destruct (assert_ _); cbn [bind]; [|reflexivity]. rewrite tam_pure. destruct (assert_ _); cbn [bind]; [|reflexivity].
  cbn [tampered]. destruct (call2 E t0 t1 _ _) as [[[u0 u1] [x0 x1]]|e]; cbn [bind]; [|reflexivity].
  destruct x0 as [| | | | | | |b0 n0]; try (destruct who; reflexivity). destruct x1 as [| | | | | | |b1 n1]; try (destruct who; reflexivity).
  transitivity (run (dop PDone (assert_ (n0 =? n1)%Z); dop PDone (count_ok E (stop - start) n0); letp res := PDone (unwrap (p3_unshard (cfg_hist cfg) (if who then raised (d start) b0 else b0) (if who then b1 else raised (d start) b1))) in PDone (Ret (res, n0))) u0 u1); [destruct who; reflexivity|].
  rewrite tam_pure. destruct (assert_ _); cbn [bind]; [|reflexivity]. rewrite tam_pure. destruct (count_ok E _ n0); cbn [bind]; [|reflexivity]. rewrite tam_pure, unshard_raised.
  destruct (p3_unshard (cfg_hist cfg) b0 b1); reflexivity.
Qed.
Lemma pm_tam_batches cfg num : forall starts s0 s1 s, starts = map (fun k => (s + k) * cfg_query_batch cfg) (seq 0 (length starts)) ->
  run (pm_batches_p E cfg num starts) s0 s1 =
  let! '(t0, t1, hs) := pm_batches E cfg s0 s1 num starts in Ret (t0, t1, mapi s (fun k h => (raised_counts (d (k * cfg_query_batch cfg)) (fst h), snd h)) hs).
Proof.
  induction starts as [|st starts IH]; intros s0 s1 s Hs; cbn [pm_batches_p pm_batches]; [reflexivity|]. cbv zeta. cbn [length seq map] in Hs. injection Hs as Hst Hs. rewrite Nat.add_0_r in Hst.
  rewrite tam_bind, pm_tam_batch. destruct (pm_batch E cfg s0 s1 st _) as [[[t0 t1] h]|e]; cbn [bind]; [|reflexivity].
  rewrite tam_bind, (IH t0 t1 (S s)).
  - destruct (pm_batches E cfg t0 t1 num starts) as [[[u0 u1] ts]|e]; cbn [bind]; [|reflexivity]. cbn [tampered bind]. rewrite mapi_cons. do 3 f_equal. rewrite Hst. reflexivity.
  - rewrite Hs at 1. rewrite <- seq_shift, map_map. apply map_ext. intros k. f_equal. lia.
Qed.
Lemma pm_main_tampered fuel shard cfg clients vk chs s0 s1 :
  run (main_pm_p fuel E shard cfg clients vk chs) s0 s1 =
  let! '(t0, t1, hs) := main_pm fuel E shard cfg clients vk chs s0 s1 in Ret (t0, t1, each (cfg_query_batch cfg) (fun start h => (raised_counts (d start) (fst h), snd h)) hs).
Proof.
  unfold main_pm_p, main_pm. destruct (negb (hist_ok (cfg_hist cfg))) eqn:Hh; [reflexivity|]. destruct (length clients =? 0); [reflexivity|]. cbn [tampered]. rewrite (alone_map E _ _ _ (gen_prio_report shard (cfg_hist cfg))) by reflexivity.
  destruct (mapM (gen_prio_report shard (cfg_hist cfg)) clients) as [reports|e]; cbn [bind]; [|reflexivity].
  rewrite tam_bind, (quiet_same E who (add_to_histograms d)) by (apply quiet_reset; reflexivity). rewrite interp_reset. destruct (reset_servers E cfg vk s0 s1) as [[t0 t1]|e]; cbn [bind unit_of]; [|reflexivity].
  rewrite tam_bind, (quiet_same E who (add_to_histograms d)) by (apply quiet_upload; reflexivity). rewrite interp_upload. destruct (upload fuel E cfg reports chs t0 t1) as [[u0 u1]|e]; cbn [bind unit_of]; [|reflexivity].
  unfold run_pm. rewrite Hh. rewrite tam_pure. destruct (step_by (length chs) (cfg_query_batch cfg)) as [starts|e] eqn:Hs; cbn [bind]; [|reflexivity].
  rewrite (pm_tam_batches _ _ _ _ _ 0 (starts_spec _ _ _ Hs)). destruct (pm_batches E cfg u0 u1 (length chs) starts) as [[[y0 y1] hs]|e]; reflexivity.
Qed.
End Histograms.

(** *** honest clients *)
Lemma tagged_nth {A} (l : list A) : forall s i a, In (i, a) (tagged s l) -> nth_error l (i - s) = Some a.
Proof.
  induction l as [|x l IH]; intros s i a H; [destruct H|]. rewrite tagged_cons in H. destruct H as [H|H]; [injection H as <- <-; rewrite Nat.sub_diag; reflexivity|].
  pose proof (tagged_in _ _ _ _ H) as Hi. apply IH in H. destruct (i - s) as [|k] eqn:Hk; [lia|]. replace k with (i - S s) by lia. exact H.
Qed.
Lemma raised_tally d x bs : forall attrs s len, (forall i j, d i j = of_Z (x i j)) ->
  mapi s (fun i (r : list bool * list fld) => (fst r, raised (d i) (snd r))) (tally_table len attrs bs) =
  mapi s (fun i a => (a, map (fun j => of_Z (tally_bucket bs a j + x i j)) (seq 0 len))) attrs.
Proof.
  intros attrs s len Hd. revert s. induction attrs as [|a attrs IH]; intros s; [reflexivity|]. cbn [tally_table map]. rewrite !mapi_cons. f_equal; [|exact (IH _)]. cbn [fst snd]. f_equal.
  rewrite raised_mapi. clear IH. generalize 0 as u. induction len as [|len IHl]; intros u; [reflexivity|]. cbn [seq map]. rewrite mapi_cons, IHl. f_equal. rewrite Hd, of_Z_add. reflexivity.
Qed.
Lemma mapi_map {A B C} (g : A -> B) (f : nat -> B -> C) l : forall s, mapi s f (map g l) = mapi s (fun i a => f i (g a)) l.
Proof. induction l as [|a l IH]; intros s; [reflexivity|]. cbn [map]. rewrite !mapi_cons, IH. reflexivity. Qed.
Lemma mapi_ext {A B} (f g : nat -> A -> B) l : forall s, (forall i a, In (i, a) (tagged s l) -> f i a = g i a) -> mapi s f l = mapi s g l.
Proof. intros s H. apply map_ext_in. intros [i a] Hi. exact (H i a Hi). Qed.

Lemma padded_tables E who extra len bits vk clients reports chs samples order fuel cfg s0 s1 :
  env_ok E -> 1 <= bits -> mapM (gen_report E len) clients = Ret reports ->
  Forall (good_client E len bits vk) clients -> Forall (good_choice E len vk reports) chs -> fixed_verifier_len E len ->
  cfg_hist cfg = len -> 0 < cfg_query_batch cfg -> 0 < cfg_add_batch cfg -> hist_ok len = true -> clients <> [] -> length chs <= fuel ->
  running 0 bits s0 -> (exists id, id <> 0%Z /\ running id bits s1) ->
  (forall s, In s samples -> 1 <= s < length clients) -> (forall l, Permutation (order l) l) ->
  exists t0 t1 attrs, tampered E who (add_to_tables (fun start a j => of_Z (extra start a j))) (main_abm_p fuel E cfg clients vk chs samples order) s0 s1 =
    Ret (t0, t1, map (fun ke => padded_table len attrs (in_table (dbg E) clients (firstn (snd ke) chs)) (extra (fst ke * cfg_query_batch cfg))) (numbered (batch_ends (length chs) (cfg_query_batch cfg)))) /\
    NoDup attrs /\ forall a, In a attrs <-> exists i cl, In i samples /\ nth_error clients i = Some cl /\ a = cl_alpha cl.
Proof.
  intros H1 H2 H3 H4 H5 H6 H7 H8 H9 H10 H11 H12 H13 H14 H15 H16.
  destruct (main_abm_ok E len bits vk clients reports chs samples order fuel cfg s0 s1 H1 H2 H3 H4 H5 H6 H7 H8 H9 H10 H11 H12 H13 H14 H15 H16) as (t0 & t1 & attrs & Hr & Hn). clear H1 H2 H3 H4 H5 H6 H7 H8 H9 H10 H11 H12 H13 H14 H15 H16.
  exists t0, t1, attrs. split; [|exact Hn]. rewrite main_tampered, Hr. cbn [bind]. do 2 f_equal. unfold each. change (numbered ?l) with (tagged 0 l).
  fold (mapi 0 (fun k t => raised_table (fun a j => of_Z (extra (k * cfg_query_batch cfg) a j)) t) (map (fun e => tally_table len attrs (in_table (dbg E) clients (firstn e chs))) (batch_ends (length chs) (cfg_query_batch cfg)))).
  rewrite mapi_map. unfold mapi. apply map_ext. intros [k e]. cbn [fst snd]. apply (raised_tally _ (extra (k * cfg_query_batch cfg))). reflexivity.
Qed.
Lemma padded_histograms E who extra shard len vk clients chs fuel cfg s0 s1 :
  (forall cl, In cl clients -> shard len (pc_bucket cl) (pc_nonce cl) (pc_rand cl) <> None) -> Forall (good_pm_choice E shard len vk clients) chs ->
  cfg_hist cfg = len -> hist_ok len = true -> clients <> [] -> 0 < cfg_query_batch cfg -> 0 < cfg_add_batch cfg ->
  length chs <= fuel -> (Z.of_nat (length chs) < 2 ^ 64)%Z ->
  s_poison s0 = false -> s_id s0 = 0%Z -> s_poison s1 = false -> s_id s1 = 1%Z ->
  let honest := map (vote_histogram len) (pieces (cfg_query_batch cfg) (pm_votes clients chs)) in
  (forall k h j z, nth_error honest k = Some h -> nth_error (fst h) j = Some z -> (0 <= z + extra (k * cfg_query_batch cfg)%nat j < P)%Z) ->
  exists t0 t1, tampered E who (add_to_histograms (fun start j => of_Z (extra start j))) (main_pm_p fuel E shard cfg clients vk chs) s0 s1 =
    Ret (t0, t1, each (cfg_query_batch cfg) (fun start h => (padded (extra start) (fst h), snd h)) honest).
Proof.
  intros H1 H2 H3 H4 H5 H6 H7 H8 H9 H10 H11 H12 H13 honest Hx.
  destruct (main_pm_ok E shard len vk clients chs fuel cfg s0 s1 H1 H2 H3 H4 H5 H6 H7 H8 H9 H10 H11 H12 H13) as (t0 & t1 & Hr). clear H1 H2 H3 H4 H5 H6 H7 H8 H9 H10 H11 H12 H13.
  fold honest in Hr. exists t0, t1. rewrite pm_main_tampered, Hr. cbn [bind]. do 2 f_equal. apply (mapi_ext (fun k h => (raised_counts (fun j => of_Z (extra (k * cfg_query_batch cfg) j)) (fst h), snd h)) (fun k h => (padded (extra (k * cfg_query_batch cfg)) (fst h), snd h))).
  intros k h Hk. f_equal. apply tagged_nth in Hk. rewrite Nat.sub_0_r in Hk. apply (mapi_ext (fun j z => fval (fadd (of_Z z) (of_Z (extra (k * cfg_query_batch cfg) j)))) (fun j z => (z + extra (k * cfg_query_batch cfg)%nat j)%Z)).
  intros j z Hj. apply tagged_nth in Hj. rewrite Nat.sub_0_r in Hj. rewrite <- of_Z_add, fval_of_Z. apply Z.mod_small. exact (Hx k h j z Hk Hj).
Qed.

(** *** what the driver checks *)
Lemma fed_pure E A B (o : outcome A) (f : A -> proc B) l :
  fed E (pbind (PDone o) f) l = match o with Ret a => fed E (f a) l | Panic e => match l with [] => Some (Panic e) | _ => None end end.
Proof. destruct o; [reflexivity|destruct l; reflexivity]. Qed.
Lemma unshard_iff len a0 a1 h : p3_unshard len a0 a1 = Some h <-> length a0 = len /\ length a1 = len /\ h = map (fun j => fval (fadd (nth j a0 (of_Z 0)) (nth j a1 (of_Z 0)))) (seq 0 len).
Proof.
  unfold p3_unshard, p3_aggregate. cbn [fold_left]. assert (Z0 : length (zeros len) = len) by apply repeat_length. rewrite Z0.
  destruct (length a0 =? len) eqn:H0; [apply Nat.eqb_eq in H0|apply Nat.eqb_neq in H0; split; [discriminate|intros (? & _); contradiction]]. rewrite vec_add_length, Z0.
  destruct (length a1 =? len) eqn:H1; [apply Nat.eqb_eq in H1|apply Nat.eqb_neq in H1; split; [discriminate|intros (_ & ? & _); contradiction]].
  assert (G : map fval (vec_add (vec_add (zeros len) a0) a1) = map (fun j => fval (fadd (nth j a0 (of_Z 0)) (nth j a1 (of_Z 0)))) (seq 0 len)).
  { rewrite <- (map_map (fun j => fadd (nth j a0 (of_Z 0)) (nth j a1 (of_Z 0))) fval). f_equal. apply nth_seq_map with (d := of_Z 0); [|rewrite !vec_add_length; exact Z0]. intros j Hj. rewrite vec_add_nth_def by (rewrite vec_add_length; lia). rewrite vec_add_nth_def by lia.
    unfold zeros. rewrite nth_repeat. apply f_equal2; [|reflexivity]. change (of_Z 0) with fzero. ring. }
  rewrite G. split; [intros H; injection H as <-; auto|intros (_ & _ & ->); reflexivity].
Qed.
Lemma hist_checks E cfg start stop v0 v1 x0 x1 hist rej :
  fed E (pm_batch_p E cfg start stop) [(v0, v1); (x0, x1)] = Some (Ret (hist, rej)) <->
  exists p0 p1 a0 a1, v0 = APm p0 /\ v1 = APm p1 /\ length p0 = stop - start /\ length p1 = stop - start /\
    x0 = APmResult a0 rej /\ x1 = APmResult a1 rej /\ (dbg E = true -> (rej <= Z.of_nat (stop - start))%Z) /\ length a0 = cfg_hist cfg /\ length a1 = cfg_hist cfg /\
    hist = map (fun j => fval (fadd (nth j a0 (of_Z 0)) (nth j a1 (of_Z 0)))) (seq 0 (cfg_hist cfg)).
Proof.
  split.
  - unfold pm_batch_p. cbv zeta. cbn [fed]. destruct v0 as [| | | | | |p0|]; try discriminate. destruct v1 as [| | | | | |p1|]; try discriminate.
    rewrite fed_pure. unfold assert_. destruct (length p0 =? stop - start) eqn:H0; [|discriminate]. rewrite fed_pure. destruct (length p1 =? stop - start) eqn:H1; [|discriminate].
    cbn [fed]. destruct x0 as [| | | | | | |a0 n0]; try discriminate. destruct x1 as [| | | | | | |a1 n1]; try discriminate. rewrite fed_pure. destruct (n0 =? n1)%Z eqn:Hn; [|discriminate].
    rewrite fed_pure. unfold count_ok. destruct (dbg E && (Z.of_nat (stop - start) <? n0)%Z) eqn:Hc; [discriminate|]. rewrite fed_pure. destruct (p3_unshard (cfg_hist cfg) a0 a1) as [h|] eqn:Hu; [|discriminate].
    cbn [unwrap fed]. intros H. injection H as <- <-. apply unshard_iff in Hu. destruct Hu as (L0 & L1 & ->). apply Nat.eqb_eq in H0, H1. apply Z.eqb_eq in Hn. subst n1.
    exists p0, p1, a0, a1. repeat (split; [first [reflexivity|assumption]|]). split; [|auto]. intros Hd. rewrite Hd in Hc. cbn in Hc. apply Z.ltb_ge in Hc. exact Hc.
  - intros (p0 & p1 & a0 & a1 & -> & -> & H0 & H1 & -> & -> & Hc & L0 & L1 & ->). unfold pm_batch_p. cbv zeta. cbn [fed]. rewrite fed_pure, H0, Nat.eqb_refl. cbn [assert_]. rewrite fed_pure, H1, Nat.eqb_refl. cbn [assert_].
    cbn [fed]. rewrite fed_pure, Z.eqb_refl. cbn [assert_]. rewrite fed_pure. unfold count_ok. replace (dbg E && (Z.of_nat (stop - start) <? rej)%Z) with false; [|destruct (dbg E); [symmetry; apply Z.ltb_ge, Hc; reflexivity|reflexivity]].
    rewrite fed_pure. assert (Hu := proj2 (unshard_iff (cfg_hist cfg) a0 a1 _) (conj L0 (conj L1 eq_refl))). rewrite Hu. reflexivity.
Qed.
Lemma rejected_ret E len l : forall i, (exists rej, abm_rejected E len i l = Ret rej) <-> Forall (fun x : (list fld * bytes) * (list fld * bytes) => flp_decide E len (sum_onto (fst (fst x)) (fst (snd x))) <> None) l.
Proof.
  induction l as [|[[ver0 pf0] [ver1 pf1]] l IH]; intros i; cbn [abm_rejected]; [split; [constructor|eauto]|]. rewrite sum_onto_eq. split.
  - intros [rej H]. bret H as ok Hok. bret H as rest Hrest. constructor; [cbn [fst snd]; destruct (flp_decide E len (sum_onto ver0 ver1)); [discriminate|discriminate Hok]|]. apply (IH (S i)). eauto.
  - intros H. inversion H as [|? ? Hx Hl]. subst. cbn [fst snd] in Hx. destruct (flp_decide E len (sum_onto ver0 ver1)) as [ok|]; [|contradiction]. apply (IH (S i)) in Hl. destruct Hl as [rest Hl]. cbn [unwrap bind]. rewrite Hl. cbn [bind]. eauto.
Qed.
Lemma add_all_eq a0 : forall a1, add_all a0 a1 = map (fun i => sum_onto (nth i a0 []) (nth i a1 [])) (seq 0 (length a0)).
Proof.
  assert (Z0 : forall x, sum_onto x [] = x) by (intros x; rewrite <- sum_onto_eq; destruct x; reflexivity).
  induction a0 as [|x a0 IH]; intros a1; [reflexivity|]. destruct a1 as [|y a1]; cbn [add_all length seq map nth].
  - f_equal; [symmetry; apply Z0|]. rewrite <- seq_shift, map_map. cbn [nth]. transitivity (map (fun i => nth i a0 []) (seq 0 (length a0))).
    + apply nth_seq_map with (d := []); reflexivity.
    + apply map_ext. intros i. symmetry. apply Z0.
  - f_equal; [apply sum_onto_eq|]. rewrite IH, <- seq_shift, map_map. reflexivity.
Qed.
Lemma table_checks E cfg attrs start stop v0 v1 x0 x1 t :
  fed E (abm_batch_p E cfg attrs start stop) [(v0, v1); (x0, x1)] = Some (Ret t) <->
  exists p0 p1 a0 a1, v0 = AAbm p0 /\ v1 = AAbm p1 /\ length p0 = stop - start /\ length p1 = stop - start /\
    (forall i u0 h0 u1 h1, nth_error p0 i = Some (u0, h0) -> nth_error p1 i = Some (u1, h1) -> flp_decide E (cfg_hist cfg) (sum_onto u0 u1) <> None) /\
    x0 = AFields a0 /\ x1 = AFields a1 /\ t = combine attrs (map (fun i => sum_onto (nth i a0 []) (nth i a1 [])) (seq 0 (length a0))).
Proof.
  assert (D : forall p0 p1 : list (list fld * bytes), length p0 = length p1 -> Forall (fun x => flp_decide E (cfg_hist cfg) (sum_onto (fst (fst x)) (fst (snd x))) <> None) (combine p0 p1) <->
    (forall i u0 h0 u1 h1, nth_error p0 i = Some (u0, h0) -> nth_error p1 i = Some (u1, h1) -> flp_decide E (cfg_hist cfg) (sum_onto u0 u1) <> None)).
  { induction p0 as [|[u0 h0] p0 IH]; intros [|[u1 h1] p1] Hl; try discriminate; cbn [combine].
    - split; [intros _ [|i]; discriminate|constructor].
    - split.
      + intros H. inversion H as [|? ? Hx Ht]. subst. rewrite (IH p1 ltac:(cbn in Hl; lia)) in Ht. intros [|i] a b c e Ha Hc; [injection Ha as <- <-; injection Hc as <- <-; exact Hx|exact (Ht i _ _ _ _ Ha Hc)].
      + intros H. constructor; [exact (H 0 _ _ _ _ eq_refl eq_refl)|]. rewrite (IH p1 ltac:(cbn in Hl; lia)). intros i a b c e Ha Hc. exact (H (S i) _ _ _ _ Ha Hc). }
  split.
  - unfold abm_batch_p. cbv zeta. cbn [fed]. destruct v0 as [| | | | |p0| |]; try discriminate. destruct v1 as [| | | | |p1| |]; try discriminate.
    rewrite fed_pure. unfold assert_. destruct (length p0 =? stop - start) eqn:H0; [|discriminate]. rewrite fed_pure. destruct (length p1 =? stop - start) eqn:H1; [|discriminate].
    rewrite fed_pure. destruct (abm_rejected E (cfg_hist cfg) start (combine p0 p1)) as [rej|e] eqn:Hr; [|discriminate]. cbn [fed]. destruct x0 as [|a0| | | | | |]; try discriminate. destruct x1 as [|a1| | | | | |]; try discriminate.
    intros H. injection H as <-. apply Nat.eqb_eq in H0, H1. exists p0, p1, a0, a1. rewrite add_all_eq. repeat (split; [first [reflexivity|assumption]|]). split; [|auto]. rewrite <- (D p0 p1 ltac:(congruence)). apply (rejected_ret E _ _ start). eauto.
  - intros (p0 & p1 & a0 & a1 & -> & -> & H0 & H1 & Hd & -> & -> & ->). rewrite <- (D p0 p1 ltac:(congruence)) in Hd. apply (rejected_ret E _ _ start) in Hd. destruct Hd as [rej Hr].
    unfold abm_batch_p. cbv zeta. cbn [fed]. rewrite fed_pure, H0, Nat.eqb_refl. cbn [assert_]. rewrite fed_pure, H1, Nat.eqb_refl. cbn [assert_]. rewrite fed_pure, Hr. cbn [fed]. rewrite add_all_eq. reflexivity.
Qed.
