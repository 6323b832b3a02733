(** Proofs for C84. *)
From Verif Require Import Base BaseFacts Field Util UtilFacts Env Prg Vidpf Merkle Collect CollectFacts CollectInv Server ServerFacts Driver DriverFacts Sched SchedFacts SchedRun System SystemFacts
  SpecVidpf SpecCollect SpecServer SpecLevel SpecWhh VidpfFacts WhhMain SpecTamper TamperFacts SpecFinal.
From Coq Require Import Lia.

(** all requests of a part of the driver satisfy [ok] *)
Fixpoint asks (ok : request -> Prop) {A} (p : proc A) : Prop :=
  match p with
  | PDone _ => True
  | PCompute t k => forall b, asks ok (k b)
  | PAsk q0 q1 k => ok q0 /\ ok q1 /\ forall r0 r1, asks ok (k r0 r1)
  end.
Lemma asks_bind (ok : request -> Prop) A B (p : proc A) (f : A -> proc B) : asks ok p -> (forall a, asks ok (f a)) -> asks ok (pbind p f).
Proof.
  intros Hp Hf. induction p as [o|C t k IH|q0 q1 k IH]; cbn [pbind asks].
  - destruct o; [apply Hf|exact I].
  - intros b. apply IH, Hp.
  - destruct Hp as (H0 & H1 & Hk). split; [exact H0|]. split; [exact H1|]. intros r0 r1. apply IH, Hk.
Qed.
Lemma asks_quiet (ok : request -> Prop) (alter : request -> response -> response) A (p : proc A) : (forall q, ok q -> forall r, alter q r = r) -> asks ok p -> quiet alter p.
Proof.
  intros Hq. induction p as [o|C t k IH|q0 q1 k IH]; cbn [asks quiet]; [auto| |].
  - intros H b. apply IH, H.
  - intros (H0 & H1 & Hk). split; [apply Hq, H0|]. split; [apply Hq, H1|]. intros r0 r1. apply IH, Hk.
Qed.

(** neither a reset nor the last request *)
Definition middle (q : request) : Prop := not_reset q /\ q <> QFinalShares.
Lemma asks_done (ok : request -> Prop) q0 q1 : ok q0 -> ok q1 -> asks ok (ask_done q0 q1).  Proof. cbn. auto. Qed.
Ltac mid := split; [exact I|discriminate].
Lemma asks_upload fuel cfg rs chs : asks middle (upload_p fuel cfg rs chs).
Proof.
  unfold upload_p. apply asks_bind; [exact I|]. intros sizes. revert chs. induction sizes as [|n sizes IH]; intros chs; cbn [upload_batches_p]; [exact I|].
  apply asks_bind; [|intros _; apply IH]. unfold add_reports_p. apply asks_bind; [exact I|]. intros ups. apply asks_done; mid.
Qed.
Lemma asks_flp_loop E cfg n : forall fuel start keep, asks middle (flp_loop_p fuel E cfg n start keep).
Proof.
  induction fuel as [|f IH]; intros start keep; cbn [flp_loop_p]; destruct (start <? n); try exact I. cbv zeta. cbn [asks]. split; [mid|]. split; [mid|]. intros r0 r1.
  destruct r0; try exact I. destruct r1; try exact I. repeat (apply asks_bind; [exact I|]; intros ?). apply IH.
Qed.
Lemma asks_level_loop len n thr : forall fuel split mal last, asks middle (level_loop_p fuel len n thr split mal last).
Proof.
  induction fuel as [|f IH]; intros split_ mal last; cbn [level_loop_p]; [exact I|]. cbn [asks]. split; [mid|]. split; [mid|]. intros r0 r1.
  destruct r0; try exact I. destruct r1; try exact I. cbv zeta.
  repeat first [exact I | apply asks_bind; [exact I|]; intros ? | apply IH | match goal with |- asks _ (match ?x with _ => _ end) => destruct x end].
Qed.
Lemma asks_proofs cfg n : forall fuel start, asks middle (proofs_loop_p fuel cfg n start).
Proof.
  induction fuel as [|f IH]; intros start; cbn [proofs_loop_p]; destruct (start <? n); try exact I. cbv zeta. cbn [asks]. split; [mid|]. split; [mid|]. intros r0 r1.
  destruct r0; try exact I. destruct r1; try exact I. repeat (apply asks_bind; [exact I|]; intros ?). apply IH.
Qed.
Lemma asks_levels E fuel cfg n : forall levels first, asks middle (levels_loop_p fuel E cfg n first levels).
Proof.
  induction levels as [|l IH]; intros first; cbn [levels_loop_p]; [exact I|]. apply asks_bind; [|intros _; apply asks_bind; [|intros _; apply IH]].
  - destruct first; [|exact I]. unfold flp_queries_p. apply asks_bind; [apply asks_flp_loop|]. intros keep. apply asks_done; mid.
  - unfold run_level_p. apply asks_bind; [apply asks_level_loop|]. intros keep. apply asks_done; mid.
Qed.

(** the number of buckets known to the aggregators stays *)
Definition inv (E : env) (n : nat) (s : server) : Prop := CollectInv.cinv E (s_coll s) /\ c_len (s_coll s) = n.
Lemma inv_handle E n s q t r : not_reset q -> inv E n s -> handle E s q = (t, r) -> inv E n t.
Proof. intros Hq [Hc Hl] H. destruct (handle_step E s q Hc) as [H1 H2]. rewrite H in H1, H2. destruct (H2 Hq) as [_ H3]. split; [exact H1|]. cbn [fst] in H3. congruence. Qed.
Lemma inv_interp E n A (p : proc A) : asks middle p -> forall s0 s1 t0 t1 a, inv E n s0 -> inv E n s1 -> interp E p s0 s1 = Ret (t0, t1, a) -> inv E n t0 /\ inv E n t1.
Proof.
  induction p as [o|C t k IH|q0 q1 k IH]; intros Hq s0 s1 t0 t1 a H0 H1 H; cbn [interp asks] in *.
  - destruct o; cbn [bind] in H; [|discriminate]. injection H as <- <- _. auto.
  - destruct (alone E t) as [c|e]; cbn [bind] in H; [|discriminate]. exact (IH c (Hq c) _ _ _ _ _ H0 H1 H).
  - destruct Hq as ((N0 & _) & (N1 & _) & Hk). destruct (call2 E s0 s1 q0 q1) as [[[u0 u1] [r0 r1]]|e] eqn:Hc; cbn [bind] in H; [|discriminate]. apply call_ret in Hc. destruct Hc as [C0 C1].
    exact (IH r0 r1 (Hk r0 r1) _ _ _ _ _ (inv_handle _ _ _ _ _ _ N0 H0 C0) (inv_handle _ _ _ _ _ _ N1 H1 C1) H).
Qed.
Lemma inv_reset E cfg vk s0 s1 t0 t1 : reset_servers E cfg vk s0 s1 = Ret (t0, t1) -> inv E (cfg_hist cfg) t0 /\ inv E (cfg_hist cfg) t1.
Proof.
  unfold reset_servers. intros Ha. apply call2_done_ret in Ha. destruct Ha as (r0 & r1 & H0 & H1). apply handle_ret in H0, H1. destruct H0 as (_ & _ & c0 & B0 & ->). destruct H1 as (_ & _ & c1 & B1 & ->). cbn [body] in B0, B1.
  destruct (hist_ok (cfg_hist cfg)); [|discriminate]. injection B0 as <- _. injection B1 as <- _. split; (split; [apply CollectInv.cinv_new|reflexivity]).
Qed.

(** *** the last level *)
Lemma select_combine {A B} : forall keep (a : list A) (b : list B), length a = length b -> select keep (combine a b) = combine (select keep a) (select keep b).
Proof.
  induction keep as [|k keep IH]; intros [|x a] [|y b] H; try discriminate; try (destruct k; reflexivity); try reflexivity.
  injection H as H. cbn [combine select]. destruct k; cbn [combine]; rewrite IH by exact H; reflexivity.
Qed.
Lemma select_map' {A B} (g : A -> B) : forall keep l, select keep (map g l) = map g (select keep l).
Proof. induction keep as [|k keep IH]; intros [|x l]; try reflexivity; cbn [map select]; destruct k; cbn [map]; rewrite ?IH; reflexivity. Qed.

Lemma raised_nth d (v : list fld) j : j < length v -> nth j (raised d v) (of_Z 0) = fadd (nth j v (of_Z 0)) (d j).
Proof.
  rewrite raised_mapi. assert (G : forall (w : list fld) s i, i < length w -> nth i (mapi s (fun j x => fadd x (d j)) w) (of_Z 0) = fadd (nth i w (of_Z 0)) (d (s + i))).
  { induction w as [|x w IH]; intros s i Hi; [cbn in Hi; lia|]. rewrite mapi_cons. destruct i as [|i]; cbn [nth]; [rewrite Nat.add_0_r; reflexivity|]. rewrite IH by (cbn in Hi; lia). do 2 f_equal. lia. }
  apply G.
Qed.
Lemma raised_map d (g : nat -> fld) n : raised d (map g (seq 0 n)) = map (fun j => fadd (g j) (d j)) (seq 0 n).
Proof. rewrite raised_mapi. generalize 0 as s. induction n as [|n IH]; intros s; [reflexivity|]. cbn [seq map]. rewrite mapi_cons, IH. reflexivity. Qed.
Lemma sum_raised_left len d a b : length a = len + 1 -> length b = len + 1 -> sum_vec (len + 1) (raised d a) b = raised d (sum_vec (len + 1) a b).
Proof. intros Ha Hb. unfold sum_vec. rewrite raised_map. apply map_ext_in. intros j Hj. apply in_seq in Hj. rewrite raised_nth by lia. ring. Qed.
Lemma sum_raised_right len d a b : length a = len + 1 -> length b = len + 1 -> sum_vec (len + 1) a (raised d b) = raised d (sum_vec (len + 1) a b).
Proof. intros Ha Hb. unfold sum_vec. rewrite raised_map. apply map_ext_in. intros j Hj. apply in_seq in Hj. rewrite raised_nth by lia. ring. Qed.
Lemma final_raised (who : bool) d len : forall f0 f1, Forall (fun r => length (res_value r) = len + 1) f0 -> Forall (fun r => length (res_value r) = len + 1) f1 ->
  final_values len (if who then map (raised_result d) f0 else f0) (if who then f1 else map (raised_result d) f1) =
  if (length f0 =? length f1) && forallb (fun rr => path_eqb (res_path (fst rr)) (res_path (snd rr))) (combine f0 f1)
  then Ret (filter (counter_nonzero len) (map (raised_result d) (reconstruct len f0 f1))) else Panic PAssert.
Proof.
  intros f0 f1 H0 H1. rewrite final_values_spec.
  replace (length (if who then map (raised_result d) f0 else f0)) with (length f0) by (destruct who; rewrite ?map_length; reflexivity).
  replace (length (if who then f1 else map (raised_result d) f1)) with (length f1) by (destruct who; rewrite ?map_length; reflexivity).
  destruct (length f0 =? length f1) eqn:Hl; [|reflexivity]. apply Nat.eqb_eq in Hl. cbn [andb].
  assert (G : forallb (fun rr => path_eqb (res_path (fst rr)) (res_path (snd rr))) (combine (if who then map (raised_result d) f0 else f0) (if who then f1 else map (raised_result d) f1)) =
              forallb (fun rr => path_eqb (res_path (fst rr)) (res_path (snd rr))) (combine f0 f1) /\
              (forallb (fun rr => path_eqb (res_path (fst rr)) (res_path (snd rr))) (combine f0 f1) = true ->
               reconstruct len (if who then map (raised_result d) f0 else f0) (if who then f1 else map (raised_result d) f1) = map (raised_result d) (reconstruct len f0 f1))).
  { revert f1 H1 Hl. induction H0 as [|a f0 Ha H0 IH]; intros f1 H1 Hl; destruct f1 as [|b f1]; try discriminate; [destruct who; split; reflexivity|].
    inversion H1 as [|? ? Hb Hf]. subst. injection Hl as Hl. destruct (IH f1 Hf Hl) as [I1 I2]. clear IH. destruct who; cbn [map combine forallb fst snd raised_result res_path reconstruct].
    - split; [rewrite I1; reflexivity|]. intros H. apply Bool.andb_true_iff in H. destruct H as [_ H]. rewrite (I2 H). f_equal. unfold raised_result. cbn [res_path res_value]. f_equal. apply sum_raised_left; assumption.
    - split; [rewrite I1; reflexivity|]. intros H. apply Bool.andb_true_iff in H. destruct H as [Hp H]. rewrite (I2 H). apply path_eqb_eq in Hp. f_equal. unfold raised_result. cbn [res_path res_value]. f_equal. rewrite Hp. apply sum_raised_right; assumption. }
  destruct G as [-> G]. destruct (forallb _ (combine f0 f1)); [|reflexivity]. rewrite G by reflexivity. reflexivity.
Qed.

Lemma crawl_last_values E c c' v : tree_crawl_last E c = Ret (c', v) -> v = map tn_value (c_frontier c') /\ Forall (fun n => length (tn_value n) = c_len c + 1) (c_frontier c').
Proof.
  intros H. apply tree_crawl_last_inv in H. destruct H as (next & proofs & Hn & _ & -> & ->). split; [reflexivity|]. cbn. apply crawl_children_inv in Hn. destruct Hn as (pairs & -> & Hf).
  assert (G : forall p b n, make_tree_node E c p b = Ret n -> length (tn_value n) = c_len c + 1).
  { intros p b n H. apply make_tree_node_inv in H. destruct H as (res & _ & ->). cbn. apply sum_honest_length. }
  induction Hf as [|node [l r] f pairs [Hl Hr] Hf IH]; [constructor|]. cbn [map concat fst snd app]. constructor; [exact (G _ _ _ Hl)|]. constructor; [exact (G _ _ _ Hr)|exact IH].
Qed.
Lemma seq_nth_map {A} (g : nat -> A) dd : forall n j, j < n -> nth j (map g (seq 0 n)) dd = g j.
Proof. intros n j H. rewrite (nth_indep _ dd (g 0)) by (rewrite map_length, seq_length; exact H). rewrite map_nth, seq_nth by exact H. reflexivity. Qed.
Lemma keep_positive len thr : (1 <= thr)%Z -> forall n0 n1 keep, Forall (fun n => length (tn_value n) = len + 1) n0 -> Forall (fun n => length (tn_value n) = len + 1) n1 ->
  keep_values len thr (map tn_value n0) (map tn_value n1) = Ret keep -> length n0 = length n1 ->
  let shares := map (fun n => {| res_path := tn_path n; res_value := tn_value n |}) in
  filter (counter_nonzero len) (reconstruct len (shares (select keep n0)) (shares (select keep n1))) = reconstruct len (shares (select keep n0)) (shares (select keep n1)).
Proof.
  intros Ht n0. unfold keep_values. induction n0 as [|a n0 IH]; intros n1 keep H0 H1 H Hl; destruct n1 as [|b n1]; try discriminate; cbn [map combine mapM fst snd] in H.
  - injection H as <-. reflexivity.
  - inversion H0 as [|? ? Ha F0]. inversion H1 as [|? ? Hb F1]. subst. injection Hl as Hl. bret H as k Hk. bret H as ks Hks. injection H as <-. bret Hk as x Hx. bret Hk as y Hy. injection Hk as <-.
    specialize (IH n1 ks F0 F1 Hks Hl). cbv zeta in IH |- *. cbn [select]. destruct (thr <=? as_u64 (fadd x y))%Z eqn:Hle; [|exact IH]. cbn [map reconstruct filter]. rewrite IH.
    replace (counter_nonzero len _) with true; [reflexivity|]. symmetry. unfold counter_nonzero. cbn [res_value]. apply index_ret in Hx, Hy. unfold sum_vec.
    rewrite seq_nth_map by lia. rewrite (nth_error_nth _ _ _ Hx), (nth_error_nth _ _ _ Hy). apply Bool.negb_true_iff, Z.eqb_neq. intros Hz. apply Z.leb_le in Hle. unfold as_u64 in Hle. rewrite Hz in Hle. cbn in Hle. lia.
Qed.

Section Run.
Context (E : env) (who : bool) (d : list bool -> nat -> fld).
Notation run := (tampered E who (add_to_results d)).
Lemma final_quiet A (p : proc A) : asks middle p -> forall s0 s1, run p s0 s1 = interp E p s0 s1.
Proof. intros H. apply quiet_same. apply (asks_quiet middle); [|exact H]. intros q [_ Hq] r. destruct q; try reflexivity. contradiction. Qed.
Lemma handle_crawl_last s t r : handle E s QTreeCrawlLast = (t, Ret r) -> exists v, r = AFields v /\ v = map tn_value (c_frontier (s_coll t)) /\ Forall (fun n => length (tn_value n) = c_len (s_coll s) + 1) (c_frontier (s_coll t)).
Proof.
  intros H. apply handle_ret in H. destruct H as (_ & _ & c & Hb & ->). cbn [body] in Hb. destruct (tree_crawl_last E (s_coll s)) as [[c' v]|e] eqn:Hc; cbn [bind] in Hb; [|discriminate]. injection Hb as <- <-.
  apply crawl_last_values in Hc. exists v. split; [reflexivity|exact Hc].
Qed.
Lemma handle_prune s keep t r : handle E s (QTreePrune keep) = (t, Ret r) -> c_frontier (s_coll t) = select keep (c_frontier (s_coll s)).
Proof.
  intros H. apply handle_ret in H. destruct H as (_ & _ & c & Hb & ->). cbn [body] in Hb. rewrite tree_prune_spec in Hb. destruct (_ =? _); [|discriminate]. cbn [bind] in Hb. injection Hb as <- <-. reflexivity.
Qed.
Lemma handle_final s t r : handle E s QFinalShares = (t, Ret r) -> t = s /\ r = AFinal (map (fun n => {| res_path := tn_path n; res_value := tn_value n |}) (c_frontier (s_coll s))).
Proof. intros H. apply handle_ret in H. destruct H as (_ & _ & c & Hb & ->). cbn [body] in Hb. injection Hb as <- <-. split; [apply set_coll_id|reflexivity]. Qed.
Lemma proofs_same cfg n : forall fuel start s0 s1 t0 t1, proofs_loop fuel E cfg s0 s1 n start = Ret (t0, t1) -> t0 = s0 /\ t1 = s1.
Proof.
  induction fuel as [|f IH]; intros start s0 s1 t0 t1 H; cbn [proofs_loop] in H; destruct (start <? n); try discriminate; try (injection H as <- <-; auto).
  cbv zeta in H. destruct (call2 E s0 s1 _ _) as [[[u0 u1] [r0 r1]]|e] eqn:Hc; cbn [bind] in H; [|discriminate]. apply call_ret in Hc. destruct Hc as [C0 C1].
  assert (G : forall s u r a b, handle E s (QGetProofs a b) = (u, Ret r) -> u = s).
  { intros s u r a b K. apply handle_ret in K. destruct K as (_ & _ & c & Hb & ->). cbn [body] in Hb. bret Hb as z Hz. injection Hb as <- <-. apply set_coll_id. }
  apply G in C0, C1. subst u0 u1. destruct r0; try discriminate. destruct r1; try discriminate. bret H as x Hx. bret H as y Hy. exact (IH _ _ _ _ _ H).
Qed.
Lemma final_last fuel cfg n s0 s1 : c_len (s_coll s0) = cfg_hist cfg -> c_len (s_coll s1) = cfg_hist cfg ->
  run (run_level_last_p fuel cfg n) s0 s1 = let! '(t0, t1, rs) := run_level_last fuel E cfg s0 s1 n in Ret (t0, t1, filter (counter_nonzero (cfg_hist cfg)) (map (raised_result d) rs)).
Proof.
  intros L0 L1. unfold run_level_last_p, run_level_last. cbn [tampered]. destruct (call2 E s0 s1 _ _) as [[[t0 t1] [r0 r1]]|e] eqn:Hc; cbn [bind]; [|reflexivity]. apply call_ret in Hc. destruct Hc as [C0 C1].
  apply handle_crawl_last in C0, C1. destruct C0 as (v0 & -> & V0 & F0). destruct C1 as (v1 & -> & V1 & F1). rewrite L0 in F0. rewrite L1 in F1.
  replace (if who then add_to_results d QTreeCrawlLast (AFields v0) else AFields v0) with (AFields v0) by (destruct who; reflexivity).
  replace (if who then AFields v1 else add_to_results d QTreeCrawlLast (AFields v1)) with (AFields v1) by (destruct who; reflexivity).
  rewrite tam_pure. destruct (length v0 =? length v1) eqn:Hl; cbn [assert_ bind]; [|reflexivity]. apply Nat.eqb_eq in Hl. rewrite tam_pure. destruct (keep_values (cfg_hist cfg) (threshold cfg) v0 v1) as [keep|e] eqn:Hk; cbn [bind]; [|reflexivity].
  rewrite tam_bind, final_quiet by apply asks_proofs. rewrite interp_proofs. destruct (proofs_loop fuel E cfg t0 t1 n 0) as [[u0 u1]|e] eqn:Hp; cbn [bind unit_of]; [|reflexivity]. apply proofs_same in Hp. destruct Hp as [-> ->].
  rewrite tam_bind, final_quiet by (apply asks_done; mid). rewrite interp_ask. destruct (call2_done E t0 t1 _ _) as [[w0 w1]|e] eqn:Hd; cbn [bind unit_of]; [|reflexivity].
  apply call2_done_ret in Hd. destruct Hd as (x0 & x1 & D0 & D1). apply handle_prune in D0, D1.
  cbn [tampered]. destruct (call2 E w0 w1 _ _) as [[[y0 y1] [z0 z1]]|e] eqn:Hc; cbn [bind]; [|reflexivity]. apply call_ret in Hc. destruct Hc as [C0 C1]. apply handle_final in C0, C1. destruct C0 as [-> ->]. destruct C1 as [-> ->].
  rewrite D0, D1. subst v0 v1. rewrite !map_length in Hl.
  assert (Ht : (1 <= threshold cfg)%Z) by (unfold threshold; lia).
  pose proof (keep_positive _ _ Ht _ _ _ F0 F1 Hk Hl) as Hpos. cbv zeta in Hpos.
  assert (Q : forall k l, Forall (fun m => length (tn_value m) = cfg_hist cfg + 1) l -> Forall (fun r => length (res_value r) = cfg_hist cfg + 1) (map (fun m => {| res_path := tn_path m; res_value := tn_value m |}) (select k l))).
  { induction k as [|b k IHk]; intros l Hf; [constructor|]. destruct Hf as [|m l Hm Hf]; [constructor|]. cbn [select]. destruct b; [cbn [map]; constructor; [exact Hm|]|]; apply IHk, Hf. }
  pose proof (Q keep _ F0) as Q0. pose proof (Q keep _ F1) as Q1. revert Hpos Q0 Q1.
  generalize (map (fun m => {| res_path := tn_path m; res_value := tn_value m |}) (select keep (c_frontier (s_coll t0)))) as f0.
  generalize (map (fun m => {| res_path := tn_path m; res_value := tn_value m |}) (select keep (c_frontier (s_coll t1)))) as f1. intros f1 f0 Hpos Q0 Q1.
  transitivity (let! a := final_values (cfg_hist cfg) (if who then map (raised_result d) f0 else f0) (if who then f1 else map (raised_result d) f1) in Ret (w0, w1, a)); [destruct who; reflexivity|].
  rewrite (final_raised who d _ _ _ Q0 Q1), final_values_spec. destruct ((length f0 =? length f1) && _); cbn [bind]; [|reflexivity]. rewrite Hpos. reflexivity.
Qed.
Lemma whh_tampered fuel cfg clients vk chs s0 s1 :
  run (main_whh_p fuel E cfg clients vk chs) s0 s1 =
  let! '(t0, t1, rs) := main_whh fuel E cfg clients vk chs s0 s1 in Ret (t0, t1, filter (counter_nonzero (cfg_hist cfg)) (map (raised_result d) rs)).
Proof.
  unfold main_whh_p, main_whh. destruct (negb (hist_ok (cfg_hist cfg))); [reflexivity|]. destruct (length clients =? 0); [reflexivity|]. cbn [tampered]. rewrite (alone_reports E). destruct (mapM (gen_report E (cfg_hist cfg)) clients) as [reports|e]; cbn [bind]; [|reflexivity].
  rewrite tam_bind, (quiet_same E who (add_to_results d)) by (apply quiet_reset; reflexivity). rewrite interp_reset. destruct (reset_servers E cfg vk s0 s1) as [[t0 t1]|e] eqn:Hr; cbn [bind unit_of]; [|reflexivity]. apply inv_reset in Hr. destruct Hr as [I0 I1].
  rewrite tam_bind, final_quiet by apply asks_upload. pose proof (fun x0 x1 a => inv_interp E _ _ _ (asks_upload fuel cfg reports chs) t0 t1 x0 x1 a I0 I1) as K.
  rewrite interp_upload in *. destruct (upload fuel E cfg reports chs t0 t1) as [[u0 u1]|e]; cbn [bind unit_of] in *; [|reflexivity]. destruct (K _ _ _ eq_refl) as [J0 J1]. clear K I0 I1.
  unfold run_whh_p, run_whh. rewrite tam_bind, final_quiet by (apply asks_done; mid). assert (Ha : asks middle (ask_done QTreeInit QTreeInit)) by (apply asks_done; mid).
  pose proof (fun x0 x1 a => inv_interp E _ _ _ Ha u0 u1 x0 x1 a J0 J1) as K. rewrite interp_ask in *. destruct (call2_done E u0 u1 QTreeInit QTreeInit) as [[w0 w1]|e]; cbn [bind unit_of] in *; [|reflexivity].
  destruct (K _ _ _ eq_refl) as [I0 I1]. clear K J0 J1. rewrite tam_pure. destruct (unwrap (cfg_bits cfg)) as [bits|e]; cbn [bind]; [|reflexivity]. destruct (bits =? 0); [reflexivity|].
  rewrite tam_bind, final_quiet by apply asks_levels. pose proof (fun x0 x1 a => inv_interp E _ _ _ (asks_levels E fuel cfg (length chs) (bits - 1) true) w0 w1 x0 x1 a I0 I1) as K.
  rewrite interp_levels in *. destruct (levels_loop fuel E cfg w0 w1 (length chs) true (bits - 1)) as [[y0 y1]|e]; cbn [bind unit_of] in *; [|reflexivity]. destruct (K _ _ _ eq_refl) as [[_ J0] [_ J1]]. apply final_last; assumption.
Qed.
End Run.

(** *** honest clients *)
Lemma raised_tally_result bs len x p : raised_result (fun p j => of_Z (x p j)) (tally_result bs len p) = padded_result bs len x p.
Proof.
  unfold raised_result, tally_result, padded_result. cbn [res_path res_value]. f_equal. rewrite raised_mapi.
  assert (G : forall n s, mapi s (fun j y => fadd y (of_Z (x p j))) (map (fun j => of_Z (tally_bucket bs p j)) (seq s n) ++ [of_Z (tally bs p)]) =
    map (fun j => of_Z (tally_bucket bs p j + x p j)) (seq s n) ++ [of_Z (tally bs p + x p (s + n)%nat)]).
  { induction n as [|n IH]; intros s; cbn [seq map app]; rewrite mapi_cons; [rewrite Nat.add_0_r, of_Z_add; reflexivity|]. rewrite IH, Nat.add_succ_r, (of_Z_add (tally_bucket bs p s)). reflexivity. }
  exact (G len 0).
Qed.
Lemma filter_map_swap {A B} (g : A -> B) f l : filter f (map g l) = map g (filter (fun a => f (g a)) l).
Proof. induction l as [|a l IH]; [reflexivity|]. cbn [map filter]. destruct (f (g a)); cbn [map]; rewrite IH; reflexivity. Qed.
Lemma filter_twice {A} (f g : A -> bool) l : filter g (filter f l) = filter (fun a => f a && g a) l.
Proof. induction l as [|a l IH]; [reflexivity|]. cbn [filter]. destruct (f a); cbn [filter andb]; rewrite IH; reflexivity. Qed.
Lemma padded_results E who extra len bits vk clients reports chs fuel cfg s0 s1 :
  env_ok E -> 1 <= bits -> mapM (gen_report E len) clients = Ret reports ->
  Forall (good_client E len bits vk) clients -> Forall (good_choice E len vk reports) chs ->
  cfg_hist cfg = len -> cfg_bits cfg = Some bits -> 0 < cfg_query_batch cfg -> 0 < cfg_add_batch cfg -> hist_ok len = true -> clients <> [] ->
  length chs <= fuel -> (Z.of_nat (length chs) < 2 ^ 64)%Z -> running 0 bits s0 -> (exists id, id <> 0%Z /\ running id bits s1) ->
  (2 <= bits -> existsb counts chs = true) -> (bits = 1 -> forallb counts chs = true) ->
  (forall l, 1 <= l -> l + 1 < bits -> exists p, length p = l /\ popular (threshold cfg) (ballots clients chs) p = true) ->
  exists t0 t1, tampered E who (add_to_results (fun p j => of_Z (extra p j))) (main_whh_p fuel E cfg clients vk chs) s0 s1 =
    Ret (t0, t1, map (padded_result (ballots clients chs) len extra)
      (filter (fun p => popular (threshold cfg) (ballots clients chs) p && negb ((tally (ballots clients chs) p + extra p len) mod P =? 0)%Z) (all_paths bits))).
Proof.
  intros H1 H2 H3 H4 H5 H6 H7 H8 H9 H10 H11 H12 H13 H14 H15 H16 H17 H18.
  destruct (main_whh_ok E H1 len bits vk clients reports chs H2 H3 H4 H5 fuel cfg s0 s1 H6 H7 H8 H9 H10 H11 H12 H13 H14 H15 H16 H17 H18) as (t0 & t1 & Hr).
  clear H1 H2 H3 H4 H5 H7 H8 H9 H10 H11 H12 H13 H14 H15 H16 H17 H18. exists t0, t1. rewrite whh_tampered, Hr. cbn [bind]. do 2 f_equal. rewrite H6, map_map, filter_map_swap, filter_twice.
  rewrite (map_ext _ _ (raised_tally_result (ballots clients chs) len extra)). f_equal. apply filter_ext. intros p. f_equal. rewrite raised_tally_result. unfold counter_nonzero, padded_result. cbn [res_value].
  rewrite app_nth2 by (rewrite map_length, seq_length; lia). rewrite map_length, seq_length, Nat.sub_diag. cbn [nth]. rewrite fval_of_Z. reflexivity.
Qed.

(** *** what the driver checks *)
Lemma requests_zero b : 0 < b -> proof_requests 0 b = 0.
Proof. intros H. unfold proof_requests. apply Nat.div_small. lia. Qed.
Lemma requests_step n b : 0 < b -> 0 < n -> proof_requests n b = S (proof_requests (n - b) b).
Proof.
  intros Hb Hn. unfold proof_requests. destruct (Nat.le_gt_cases b n) as [H|H].
  - replace (n + b - 1) with (n - b + b - 1 + 1 * b) by lia. rewrite Nat.div_add by lia. lia.
  - replace (n - b) with 0 by lia. cbn [Nat.add]. rewrite (Nat.div_small (b - 1)) by lia. symmetry. apply Nat.div_unique with (r := n - 1); lia.
Qed.
Lemma all_equal : forall h0 h1 : list bytes, length h0 = length h1 -> forallb (fun hh => bytes_eqb (fst hh) (snd hh)) (combine h0 h1) = true -> h0 = h1.
Proof.
  induction h0 as [|a h0 IH]; intros [|b h1] Hl H; try discriminate; [reflexivity|]. cbn in H. apply Bool.andb_true_iff in H. destruct H as [H1 H2]. apply bytes_eqb_eq in H1. subst b. f_equal. apply IH; [injection Hl as Hl; exact Hl|exact H2].
Qed.
Lemma equal_all : forall h : list bytes, forallb (fun hh => bytes_eqb (fst hh) (snd hh)) (combine h h) = true.
Proof. induction h as [|a h IH]; [reflexivity|]. cbn. rewrite IH, Bool.andb_true_r. apply bytes_eqb_eq. reflexivity. Qed.
Lemma fed_proofs E cfg n A (k : proc A) a : 0 < cfg_query_batch cfg -> forall fuel start l, n - start <= fuel ->
  fed E (dop proofs_loop_p fuel cfg n start; k) l = Some (Ret a) <->
  exists ps l', l = ps ++ l' /\ length ps = proof_requests (n - start) (cfg_query_batch cfg) /\ Forall same_proofs ps /\ fed E k l' = Some (Ret a).
Proof.
  intros Hb. induction fuel as [|f IH]; intros start l Hf; cbn [proofs_loop_p]; destruct (start <? n) eqn:Hs; [apply Nat.ltb_lt in Hs; lia| | |].
  2: { apply Nat.ltb_lt in Hs. cbv zeta. cbn [pbind]. cbn [fed]. rewrite requests_step by lia. replace (n - start - cfg_query_batch cfg) with (n - (start + cfg_query_batch cfg)) by lia. split.
    - destruct l as [|[r0 r1] l]; [discriminate|]. destruct r0 as [| | |h0| | | |]; try (destruct l; discriminate). destruct r1 as [| | |h1| | | |]; try (destruct l; discriminate).
      cbn [assert_]. unfold assert_. destruct (length h0 =? length h1) eqn:Hl; [|destruct l; discriminate]. cbn [pbind]. destruct (forallb _ (combine h0 h1)) eqn:He; [|destruct l; discriminate]. cbn [pbind].
      intros H. apply IH in H; [|lia]. destruct H as (ps & l' & -> & Hp & Hsame & Hk). apply Nat.eqb_eq in Hl. pose proof (all_equal _ _ Hl He). subst h1.
      exists ((AProofs h0, AProofs h0) :: ps), l'. split; [reflexivity|]. split; [cbn; lia|]. split; [constructor; [exists h0; reflexivity|exact Hsame]|exact Hk].
    - intros (ps & l' & -> & Hp & Hsame & Hk). destruct Hsame as [|x ps [h ->] Hsame]; [discriminate|]. cbn [app]. unfold assert_. rewrite Nat.eqb_refl. cbn [pbind]. rewrite equal_all. cbn [pbind].
      apply IH; [lia|]. exists ps, l'. cbn in Hp. auto. }
  all: apply Nat.ltb_ge in Hs; cbn [pbind]; replace (n - start) with 0 by lia; rewrite requests_zero by exact Hb; split;
    [intros H; exists [], l; auto|intros (ps & l' & -> & Hp & _ & Hk); destruct ps; [exact Hk|discriminate]].
Qed.
Lemma keep_values_ret len thr : forall v0 v1, length v0 = length v1 ->
  (exists keep, keep_values len thr v0 v1 = Ret keep) <-> Forall (fun v => len < length v) v0 /\ Forall (fun v => len < length v) v1.
Proof.
  unfold keep_values. induction v0 as [|a v0 IH]; intros [|b v1] Hl; try discriminate; [split; [split; constructor|intros _; exists []; reflexivity]|]. injection Hl as Hl. cbn [combine mapM fst snd]. specialize (IH v1 Hl). split.
  - intros [keep H]. bret H as k Hk. bret H as ks Hks. bret Hk as x Hx. bret Hk as y Hy. apply index_ret in Hx, Hy. destruct (proj1 IH (ex_intro _ _ Hks)) as [F0 F1].
    split; (constructor; [|assumption]); apply nth_error_Some; congruence.
  - intros [H0 H1]. inversion H0 as [|? ? Ha F0]. inversion H1 as [|? ? Hb F1]. subst. destruct (proj2 IH (conj F0 F1)) as [ks Hks]. unfold index at 1 2.
    destruct (nth_error a len) eqn:N0; [|apply nth_error_None in N0; lia]. destruct (nth_error b len) eqn:N1; [|apply nth_error_None in N1; lia]. cbn [bind]. rewrite Hks. cbn [bind]. eauto.
Qed.
Lemma same_paths : forall f0 f1 : list result, (length f0 =? length f1) && forallb (fun rr => path_eqb (res_path (fst rr)) (res_path (snd rr))) (combine f0 f1) = true <-> map res_path f0 = map res_path f1.
Proof.
  induction f0 as [|a f0 IH]; intros [|b f1]; cbn; try (split; (reflexivity || discriminate)). specialize (IH f1). split.
  - intros H. apply Bool.andb_true_iff in H. destruct H as [H1 H2]. apply Bool.andb_true_iff in H2. destruct H2 as [H2 H3]. apply path_eqb_eq in H2. f_equal; [exact H2|]. apply IH. rewrite H1, H3. reflexivity.
  - intros H. injection H as H1 H2. apply IH in H2. apply Bool.andb_true_iff in H2. destruct H2 as [H2 H3]. rewrite H2, H3. cbn. rewrite Bool.andb_true_r. apply path_eqb_eq, H1.
Qed.
Lemma last_checks E fuel cfg n answers rs : 0 < cfg_query_batch cfg -> n <= fuel ->
  fed E (run_level_last_p fuel cfg n) answers = Some (Ret rs) <->
  exists v0 v1 ps done f0 f1, answers = (AFields v0, AFields v1) :: ps ++ [done; (AFinal f0, AFinal f1)] /\
    length v0 = length v1 /\ Forall (fun v => cfg_hist cfg < length v) v0 /\ Forall (fun v => cfg_hist cfg < length v) v1 /\
    length ps = proof_requests n (cfg_query_batch cfg) /\ Forall same_proofs ps /\
    map res_path f0 = map res_path f1 /\ rs = filter (counter_nonzero (cfg_hist cfg)) (reconstruct (cfg_hist cfg) f0 f1).
Proof.
  intros Hb Hf. unfold run_level_last_p. cbn [fed]. split.
  - destruct answers as [|[r0 r1] l]; [discriminate|]. destruct r0 as [|v0| | | | | |]; try (destruct l; discriminate). destruct r1 as [|v1| | | | | |]; try (destruct l; discriminate).
    rewrite fed_pure. unfold assert_. destruct (length v0 =? length v1) eqn:Hl; [|destruct l; discriminate]. apply Nat.eqb_eq in Hl. rewrite fed_pure. destruct (keep_values (cfg_hist cfg) (threshold cfg) v0 v1) as [keep|e] eqn:Hk; [|destruct l; discriminate].
    intros H. apply fed_proofs in H; [|exact Hb|lia]. destruct H as (ps & l' & -> & Hp & Hs & H). destruct (proj1 (keep_values_ret _ _ _ _ Hl) (ex_intro _ _ Hk)) as [F0 F1].
    unfold ask_done in H. cbn [pbind fed] in H. destruct l' as [|[y0 y1] l']; [discriminate|]. cbn [fed] in H. destruct l' as [|[z0 z1] l']; [discriminate|].
    destruct z0 as [| | | |f0| | |]; try (destruct l'; discriminate). destruct z1 as [| | | |f1| | |]; try (destruct l'; discriminate). cbn [fed] in H. destruct l'; [|discriminate]. injection H as H.
    rewrite final_values_spec in H. destruct ((length f0 =? length f1) && _) eqn:Hc; [|discriminate]. injection H as <-. apply same_paths in Hc. rewrite Nat.sub_0_r in Hp.
    exists v0, v1, ps, (y0, y1), f0, f1. auto 10.
  - intros (v0 & v1 & ps & [y0 y1] & f0 & f1 & -> & Hl & F0 & F1 & Hp & Hs & Hc & ->). rewrite fed_pure. unfold assert_. rewrite (proj2 (Nat.eqb_eq _ _) Hl). rewrite fed_pure.
    destruct (proj2 (keep_values_ret (cfg_hist cfg) (threshold cfg) _ _ Hl) (conj F0 F1)) as [keep ->]. apply fed_proofs; [exact Hb|lia|]. exists ps, [(y0, y1); (AFinal f0, AFinal f1)]. rewrite Nat.sub_0_r. split; [reflexivity|]. split; [exact Hp|]. split; [exact Hs|].
    cbn [pbind ask_done fed]. rewrite final_values_spec, (proj2 (same_paths f0 f1) Hc). reflexivity.
Qed.
