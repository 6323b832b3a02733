(** Proofs for C71: with positive batch sizes no loop of the model runs out of fuel. *)
From Verif Require Import Base BaseFacts Field Util UtilFacts Env Prg Vidpf Merkle Collect Server Driver Modes SpecDriver SpecBatch CollectFacts ServerFacts DriverFacts DriverPropFacts.
From Coq Require Import Lia.

Lemma nf_bind {A B} (m : outcome A) (k : A -> outcome B) : not_fuel m -> (forall a, m = Ret a -> not_fuel (k a)) -> not_fuel (bind m k).
Proof. intros Hm Hk. destruct m as [a|p]; [apply Hk; reflexivity|]. intros H. apply Hm. cbn in H. congruence. Qed.
Lemma nf_mapM {A B} (f : A -> outcome B) l : (forall a, not_fuel (f a)) -> not_fuel (mapM f l).
Proof. intros H. induction l as [|a l IH]; cbn [mapM]; [discriminate|]. apply nf_bind; [apply H|intros x _]. apply nf_bind; [exact IH|discriminate]. Qed.
Lemma nf_mapMi {A B} (f : nat -> A -> outcome B) l : (forall i a, not_fuel (f i a)) -> forall i, not_fuel (mapMi f i l).
Proof. intros H. induction l as [|a l IH]; intros i; cbn [mapMi]; [discriminate|]. apply nf_bind; [apply H|intros x _]. apply nf_bind; [apply IH|discriminate]. Qed.
Lemma nf_foldM {A S} (f : S -> A -> outcome S) l : (forall s a, not_fuel (f s a)) -> forall s, not_fuel (foldM f s l).
Proof. intros H. induction l as [|a l IH]; intros s; cbn [foldM]; [discriminate|]. apply nf_bind; [apply H|intros x _; apply IH]. Qed.
Lemma nf_index {A} (l : list A) i : not_fuel (index l i).
Proof. unfold index. destruct (nth_error l i); discriminate. Qed.
Lemma nf_unwrap {A} (o : option A) : not_fuel (unwrap o).
Proof. destruct o; discriminate. Qed.
Lemma nf_assert b : not_fuel (assert_ b).
Proof. destruct b; discriminate. Qed.
Lemma nf_dassert d b : not_fuel (debug_assert d b).
Proof. destruct d, b; discriminate. Qed.
Ltac nf := repeat (first
  [ discriminate | apply nf_index | apply nf_unwrap | apply nf_assert | apply nf_dassert
  | match goal with
    | H : forall _, _ |- not_fuel _ => apply H
    | |- not_fuel (bind _ _) => apply nf_bind; [|intros ? _]
    | |- not_fuel (mapM _ _) => apply nf_mapM; intros
    | |- not_fuel (mapMi _ _ _) => apply nf_mapMi; intros
    | |- not_fuel (foldM _ _ _) => apply nf_foldM; intros
    | |- not_fuel (match ?x with _ => _ end) => destruct x
    | |- not_fuel (let _ := _ in _) => cbv zeta
    end
  | solve [auto with nf] ]).

(** the key stream: every round of fill_bytes copies at least one byte *)
Definition sane (s : stream) : Prop := buf_ptr s <= have s.
Lemma fill_ends E n : forall fuel s ptr dest, sane s -> n - ptr <= fuel ->
  not_fuel (fill_loop fuel E s n ptr dest) /\ forall s' b, fill_loop fuel E s n ptr dest = Ret (s', b) -> sane s'.
Proof.
  induction fuel as [|fuel IH]; intros s ptr dest Hs Hf; cbn [fill_loop]; (destruct (ptr <? n) eqn:Hp; [apply Nat.ltb_lt in Hp|split; [discriminate|intros s' b H; injection H as <- _; exact Hs]]); [lia|].
  assert (Hr : forall s1, (if buf_ptr s =? have s then if 4 * AES_BLOCK_SIZE <? n then Ret (refill8 E s) else refill E s else Ret s) = Ret s1 -> buf_ptr s1 < have s1).
  { intros s1. destruct (buf_ptr s =? have s) eqn:He.
    - destruct (_ <? _).
      + intros H. injection H as <-. unfold AES_BLOCK_SIZE. cbn. lia.
      + unfold refill. destruct (debug_assert _ _); cbn [bind]; [|discriminate]. intros H. injection H as <-. unfold AES_BLOCK_SIZE. cbn. lia.
    - apply Nat.eqb_neq in He. intros H. injection H as <-. unfold sane in Hs. lia. }
  match goal with |- context [bind ?m _] => destruct m as [s1|p] eqn:Hm end; cbn [bind].
  - specialize (Hr s1 eq_refl). apply IH; [unfold sane; cbn; lia|]. lia.
  - split; [|discriminate]. destruct (buf_ptr s =? have s); [|discriminate]. destruct (_ <? _); [discriminate|]. unfold refill in Hm. destruct (dbg E), (buf_ptr s =? AES_BLOCK_SIZE); cbv [debug_assert negb orb andb assert_ bind] in Hm; congruence.
Qed.
Lemma nf_fill E s n : sane s -> not_fuel (fill_bytes E s n).
Proof. intros H. apply fill_ends; [exact H|lia]. Qed.
Lemma fill_sane E s n s' b : sane s -> fill_bytes E s n = Ret (s', b) -> sane s'.
Proof. intros H. apply fill_ends; [exact H|lia]. Qed.
Lemma set_key_sane s k : sane (set_key s k).
Proof. unfold sane. cbn. lia. Qed.
Lemma skip_sane E s s' : sane s -> skip_block E s = Ret s' -> sane s'.
Proof. intros H. unfold skip_block. destruct (debug_assert _ _); cbn [bind]; [|discriminate]. destruct (debug_assert _ _); cbn [bind]; [|discriminate]. intros K. injection K as <-. exact H. Qed.
Lemma nf_skip E s : not_fuel (skip_block E s).
Proof. unfold skip_block. nf. Qed.
Lemma nf_expand_dir E key l r : not_fuel (expand_dir E key l r).
Proof.
  unfold expand_dir, expand_dir_on. cbv zeta. pose proof (set_key_sane stream_new (mask_key key)) as H0.
  apply nf_bind; [|intros [? ?] _; discriminate]. apply nf_bind.
  - destruct l; [apply nf_fill; exact H0|]. apply nf_bind; [apply nf_skip|discriminate].
  - intros [s1 x] Hx. assert (H1 : sane s1).
    { destruct l; [eapply fill_sane; eassumption|]. destruct (skip_block _ _) as [s'|] eqn:Hs; [|discriminate]. cbn [bind] in Hx. injection Hx as <- _. eapply skip_sane; eassumption. }
    apply nf_bind; [|intros [? ?] _; discriminate]. destruct r; [apply nf_fill; exact H1|]. apply nf_bind; [apply nf_skip|discriminate].
Qed.
Lemma from_rng_ends E s : sane s -> not_fuel (from_rng E s) /\ forall s' x, from_rng E s = Ret (s', x) -> sane s'.
Proof.
  intros H. unfold from_rng, next_u64. destruct (fill_bytes E s 8) as [[s1 b1]|p] eqn:H1; cbn [bind].
  2:{ split; [|discriminate]. intros Hp. apply (nf_fill E s 8 H). congruence. }
  pose proof (fill_sane _ _ _ _ _ H H1) as Hs1. destruct (fill_bytes E s1 8) as [[s2 b2]|p] eqn:H2; cbn [bind].
  2:{ split; [|discriminate]. intros Hp. apply (nf_fill E s1 8 Hs1). congruence. }
  split; [discriminate|]. intros s' x Hx. injection Hx as <- _. eapply fill_sane; eassumption.
Qed.
Lemma draw_ends E n : forall s, sane s -> not_fuel (draw_fields E s n).
Proof.
  induction n as [|n IH]; intros s H; cbn [draw_fields]; [discriminate|]. destruct (from_rng_ends E s H) as [Ha Hb].
  apply nf_bind; [exact Ha|]. intros [s1 x] Hx. apply nf_bind; [apply IH; eapply Hb; exact Hx|intros [? ?] _; discriminate].
Qed.
Lemma nf_convert E key n : not_fuel (convert E key n).
Proof.
  unfold convert, convert_on. cbv zeta. apply nf_bind; [|intros [? ?] _; discriminate]. apply nf_bind; [apply nf_fill, set_key_sane|].
  intros [s1 x] Hx. apply nf_bind; [apply draw_ends; eapply fill_sane; [apply set_key_sane|exact Hx]|intros [? ?] _; discriminate].
Qed.
Local Hint Resolve nf_expand_dir nf_convert : nf.

(** VIDPF *)
Lemma nf_gen_loop E beta : forall alpha bs bits seeds, not_fuel (gen_loop E alpha beta bs bits seeds).
Proof.
  induction alpha as [|b alpha IH]; intros; cbn [gen_loop]; [discriminate|]. apply nf_bind.
  - unfold gen_cor_word, expand. nf.
  - intros [[cw bits'] seeds'] _. nf.
Qed.
Lemma nf_gen E s0 s1 a b : not_fuel (gen E s0 s1 a b).
Proof. unfold gen. apply nf_bind; [apply nf_gen_loop|]. intros [? ?] _. discriminate. Qed.
Lemma nf_eval_bit E k st d bs n : not_fuel (eval_bit E k st d bs n).
Proof. unfold eval_bit. nf. Qed.
Local Hint Resolve nf_eval_bit nf_gen : nf.
Lemma nf_traverse E k n : forall path node tr, not_fuel (traverse E k n path node tr).
Proof. induction path as [|b path IH]; intros node tr; cbn [traverse]; [discriminate|]. unfold node_next. nf. Qed.
Local Hint Resolve nf_traverse : nf.
Lemma nf_eval_paths E k n : forall paths node tr, not_fuel (eval_paths E k n paths node tr).
Proof. induction paths as [|p paths IH]; intros node tr; cbn [eval_paths]; nf. Qed.
Local Hint Resolve nf_eval_paths : nf.
Lemma nf_eval_tree E k paths n tr : not_fuel (eval_tree E k paths n tr).
Proof. unfold eval_tree. nf. Qed.
Local Hint Resolve nf_eval_tree : nf.

(** the collector and the aggregators *)
Lemma nf_key r : not_fuel (unwrap_vidpf_key r). Proof. destruct r; discriminate. Qed.
Lemma nf_jr r : not_fuel (unwrap_flp_joint_rand_parts r). Proof. destruct r; discriminate. Qed.
Lemma nf_pf r : not_fuel (unwrap_flp_proof_share r). Proof. destruct r; discriminate. Qed.
Local Hint Resolve nf_key nf_jr nf_pf : nf.
Lemma nf_node E c p d : not_fuel (make_tree_node E c p d). Proof. unfold make_tree_node. nf. Qed.
Lemma nf_joint E c i : not_fuel (flp_joint_rand E c i). Proof. unfold flp_joint_rand. nf. Qed.
Lemma nf_queryr E c i : not_fuel (flp_query_rand E c i). Proof. unfold flp_query_rand. nf. Qed.
Local Hint Resolve nf_node nf_joint nf_queryr : nf.
Lemma nf_rfq E c a b : not_fuel (run_flp_queries E c a b). Proof. unfold run_flp_queries. nf. Qed.
Lemma nf_children E c b : not_fuel (crawl_children E c b). Proof. unfold crawl_children. nf. Qed.
Lemma nf_prepare c m l : not_fuel (crawl_prepare c m l). Proof. unfold crawl_prepare, reject_clients. nf. Qed.
Lemma nf_checks E c l n : not_fuel (y_checks E c l n). Proof. unfold y_checks. nf. Qed.
Lemma nf_xproofs n i : not_fuel (xor_proofs n i). Proof. unfold xor_proofs. nf. Qed.
Lemma nf_xchecks c l n i : not_fuel (xor_checks c l n i). Proof. unfold xor_checks. nf. Qed.
Local Hint Resolve nf_rfq nf_children nf_prepare nf_checks nf_xproofs nf_xchecks : nf.
Lemma nf_hash E c l n k i : not_fuel (client_hash E c l n k i). Proof. unfold client_hash. nf. Qed.
Lemma nf_merkle E h s m l : not_fuel (merkle_part E h s m l). Proof. unfold merkle_part, chunks. nf. Qed.
Local Hint Resolve nf_hash nf_merkle : nf.
Lemma nf_crawl E c s m l : not_fuel (tree_crawl E c s m l). Proof. unfold tree_crawl. nf. Qed.
Lemma nf_crawl_last E c : not_fuel (tree_crawl_last E c). Proof. unfold tree_crawl_last. nf. Qed.
Lemma nf_prune_loop {A} alive : forall n (l : list A), not_fuel (prune_loop alive n l).
Proof. induction n as [|n IH]; intros l; cbn [prune_loop]; nf. Qed.
Lemma nf_apply_keep : forall keep i reps, not_fuel (apply_keep keep i reps).
Proof. induction keep as [|b keep IH]; intros i reps; cbn [apply_keep]; nf. Qed.
Local Hint Resolve nf_crawl nf_crawl_last nf_prune_loop nf_apply_keep : nf.
Lemma nf_abm1 E c a i : not_fuel (abm_validate_one E c a i). Proof. unfold abm_validate_one. nf. Qed.
Lemma nf_pm1 E c a i : not_fuel (pm_validate_one E c a i). Proof. unfold pm_validate_one. nf. Qed.
Lemma nf_pmr E n sid : forall l m, not_fuel (pm_result_loop E n sid m l).
Proof. induction l as [|[i p] l IH]; intros m; cbn [pm_result_loop]; [discriminate|]. unfold pm_result_one. nf. Qed.
Local Hint Resolve nf_abm1 nf_pm1 nf_pmr : nf.
Lemma nf_body E s q : not_fuel (body E s q).
Proof. destruct q; cbn [body]; unfold tree_init, apply_flp_results, tree_prune, abm_validate, abm_result, abm_reject, pm_validate, pm_result; nf. Qed.
Lemma nf_handle E s q : not_fuel (snd (handle E s q)).
Proof.
  unfold handle. destruct (prelock E q) as [u|p] eqn:Hp.
  - destruct (s_poison s); [discriminate|]. pose proof (nf_body E s q) as H. destruct (body E s q) as [[c r]|p]; cbn [snd]; [discriminate|]. intros K. apply H. congruence.
  - cbn [snd]. destruct q; cbn [prelock] in Hp; try discriminate; unfold debug_assert in Hp; destruct (dbg E); try discriminate; match type of Hp with context [if ?b then _ else _] => destruct b end; congruence.
Qed.
Lemma nf_call2 E s0 s1 q0 q1 : not_fuel (call2 E s0 s1 q0 q1).
Proof.
  unfold call2. pose proof (nf_handle E s0 q0) as H0. pose proof (nf_handle E s1 q1) as H1. destruct (handle E s0 q0) as [t0 a0], (handle E s1 q1) as [t1 a1]. cbn [snd] in *.
  apply nf_bind; [exact H0|intros r0 _]. apply nf_bind; [exact H1|discriminate].
Qed.
Local Hint Resolve nf_call2 : nf.
Lemma nf_call2d E s0 s1 q0 q1 : not_fuel (call2_done E s0 s1 q0 q1).
Proof. unfold call2_done. nf. Qed.
Local Hint Resolve nf_call2d : nf.

(** the driver *)
Lemma nf_flp_loop E cfg n : 0 < cfg_query_batch cfg -> forall fuel s0 s1 start keep, n - start <= fuel -> not_fuel (flp_loop fuel E cfg s0 s1 n start keep).
Proof.
  intros Hb. induction fuel as [|fuel IH]; intros s0 s1 start keep Hf; cbn [flp_loop]; (destruct (start <? n) eqn:Hs; [apply Nat.ltb_lt in Hs|discriminate]); [lia|].
  apply nf_bind; [apply nf_call2|]. intros [[t0 t1] [a b]] _. destruct a; try discriminate. destruct b; try discriminate.
  apply nf_bind; [apply nf_dassert|intros _ _]. apply nf_bind; [unfold flp_decide_pair; nf|intros ks _]. apply IH. lia.
Qed.
Lemma nf_proofs_loop E cfg n : 0 < cfg_query_batch cfg -> forall fuel s0 s1 start, n - start <= fuel -> not_fuel (proofs_loop fuel E cfg s0 s1 n start).
Proof.
  intros Hb. induction fuel as [|fuel IH]; intros s0 s1 start Hf; cbn [proofs_loop]; (destruct (start <? n) eqn:Hs; [apply Nat.ltb_lt in Hs|discriminate]); [lia|].
  apply nf_bind; [apply nf_call2|]. intros [[t0 t1] [a b]] _. destruct a; try discriminate. destruct b; try discriminate.
  apply nf_bind; [apply nf_assert|intros _ _]. apply nf_bind; [apply nf_assert|intros _ _]. apply IH. lia.
Qed.
Lemma nf_ask E ss s m l : not_fuel (ask_servers E ss s m l).
Proof. unfold ask_servers. nf. Qed.
Lemma log2_up_le n : Nat.log2_up n <= n.
Proof. destruct n as [|n]; [cbn; lia|]. pose proof (Nat.log2_up_lt_lin (S n) ltac:(lia)). lia. Qed.
Lemma nf_level fuel E cfg s0 s1 n : n + 2 <= fuel -> not_fuel (run_level fuel E cfg s0 s1 n).
Proof.
  intros Hf. unfold run_level. apply nf_bind; [|intros [[ss keep] r] _; apply nf_call2d].
  apply level_requests; [intros; apply nf_ask|]. pose proof (log2_up_le n). lia.
Qed.
Lemma nf_flp fuel E cfg s0 s1 n : 0 < cfg_query_batch cfg -> n <= fuel -> not_fuel (drv_run_flp_queries fuel E cfg s0 s1 n).
Proof. intros Hb Hf. unfold drv_run_flp_queries. apply nf_bind; [apply nf_flp_loop; [exact Hb|lia]|]. intros [[t0 t1] keep] _. apply nf_call2d. Qed.
Lemma nf_levels fuel E cfg n : 0 < cfg_query_batch cfg -> n + 2 <= fuel -> forall k s0 s1 first, not_fuel (levels_loop fuel E cfg s0 s1 n first k).
Proof.
  intros Hb Hf. induction k as [|k IH]; intros s0 s1 first; cbn [levels_loop]; [discriminate|].
  apply nf_bind; [destruct first; [apply nf_flp; [exact Hb|lia]|discriminate]|]. intros [t0 t1] _. apply nf_bind; [apply nf_level; exact Hf|]. intros [u0 u1] _. apply IH.
Qed.
Lemma nf_last fuel E cfg s0 s1 n : 0 < cfg_query_batch cfg -> n <= fuel -> not_fuel (run_level_last fuel E cfg s0 s1 n).
Proof.
  intros Hb Hf. unfold run_level_last. apply nf_bind; [apply nf_call2|]. intros [[t0 t1] [a b]] _. destruct a; try discriminate. destruct b; try discriminate.
  apply nf_bind; [apply nf_assert|intros _ _]. apply nf_bind; [unfold keep_values; nf|intros keep _]. apply nf_bind; [apply nf_proofs_loop; [exact Hb|lia]|]. intros [u0 u1] _.
  unfold final_values. nf.
Qed.
Lemma nf_whh fuel E cfg s0 s1 n : 0 < cfg_query_batch cfg -> n + 2 <= fuel -> not_fuel (run_whh fuel E cfg s0 s1 n).
Proof.
  intros Hb Hf. unfold run_whh. apply nf_bind; [apply nf_call2d|]. intros [t0 t1] _. apply nf_bind; [apply nf_unwrap|intros bits _]. destruct (bits =? 0); [discriminate|].
  apply nf_bind; [apply nf_levels; assumption|]. intros [u0 u1] _. apply nf_last; [exact Hb|lia].
Qed.
Lemma nf_upload fuel E cfg reports chs s0 s1 : 0 < cfg_add_batch cfg -> length chs <= fuel -> not_fuel (upload fuel E cfg reports chs s0 s1).
Proof.
  intros Hb Hf. unfold upload. destruct (upload_sizes_spec _ Hb fuel (length chs) Hf) as (sizes & -> & _). cbn [bind]. clear Hf.
  revert chs s0 s1. induction sizes as [|m sizes IH]; intros chs s0 s1; cbn [upload_batches]; [discriminate|]. unfold add_reports, make_upload, tamper. nf.
Qed.
Lemma nf_reports E len cls : not_fuel (mapM (gen_report E len) cls).
Proof. unfold gen_report. nf. Qed.
Lemma nf_rejected E len : forall l i, not_fuel (abm_rejected E len i l).
Proof. induction l as [|[[v0 p0] [v1 p1]] l IH]; intros i; cbn [abm_rejected]; nf. Qed.
Local Hint Resolve nf_rejected : nf.
Lemma nf_abm E cfg attrs n : forall starts s0 s1, not_fuel (abm_batches E cfg s0 s1 attrs n starts).
Proof. induction starts as [|st starts IH]; intros s0 s1; cbn [abm_batches]; [discriminate|]. unfold abm_batch. nf. Qed.
Lemma nf_pm E cfg n : forall starts s0 s1, not_fuel (pm_batches E cfg s0 s1 n starts).
Proof. induction starts as [|st starts IH]; intros s0 s1; cbn [pm_batches]; [discriminate|]. unfold pm_batch, count_ok. nf. Qed.

(** one more round changes nothing once the loop has ended *)
Lemma eq_bind {A B} (m m' : outcome A) (k k' : A -> outcome B) : m = m' -> (forall a, k a = k' a) -> bind m k = bind m' k'.
Proof. intros <- H. destruct m; [apply H|reflexivity]. Qed.
Lemma flp_loop_S E cfg n : 0 < cfg_query_batch cfg -> forall fuel s0 s1 start keep, n - start <= fuel -> flp_loop (S fuel) E cfg s0 s1 n start keep = flp_loop fuel E cfg s0 s1 n start keep.
Proof.
  intros Hb. induction fuel as [|fuel IH]; intros s0 s1 start keep Hf; (destruct (start <? n) eqn:Hs; [pose proof (proj1 (Nat.ltb_lt _ _) Hs) as Hlt|cbn [flp_loop]; rewrite Hs; reflexivity]); [lia|].
  cbn [flp_loop] in *. rewrite Hs. apply eq_bind; [reflexivity|]. intros [[t0 t1] [a b]]. destruct a; try reflexivity. destruct b; try reflexivity.
  apply eq_bind; [reflexivity|intros _]. apply eq_bind; [reflexivity|intros ks]. apply IH. lia.
Qed.
Lemma proofs_loop_S E cfg n : 0 < cfg_query_batch cfg -> forall fuel s0 s1 start, n - start <= fuel -> proofs_loop (S fuel) E cfg s0 s1 n start = proofs_loop fuel E cfg s0 s1 n start.
Proof.
  intros Hb. induction fuel as [|fuel IH]; intros s0 s1 start Hf; (destruct (start <? n) eqn:Hs; [pose proof (proj1 (Nat.ltb_lt _ _) Hs) as Hlt|cbn [proofs_loop]; rewrite Hs; reflexivity]); [lia|].
  cbn [proofs_loop] in *. rewrite Hs. apply eq_bind; [reflexivity|]. intros [[t0 t1] [a b]]. destruct a; try reflexivity. destruct b; try reflexivity.
  apply eq_bind; [reflexivity|intros _]. apply eq_bind; [reflexivity|intros _]. apply IH. lia.
Qed.
Lemma level_S fuel E cfg s0 s1 n : n + 2 <= fuel -> run_level (S fuel) E cfg s0 s1 n = run_level fuel E cfg s0 s1 n.
Proof.
  intros Hf. pose proof (log2_up_le n). unfold run_level. apply eq_bind; [|reflexivity].
  rewrite (proj2 (proj2 (level_requests (ask_servers E) (cfg_hist cfg) n (threshold cfg) (s0, s1) (S fuel) (nf_ask E) ltac:(lia)))).
  rewrite (proj2 (proj2 (level_requests (ask_servers E) (cfg_hist cfg) n (threshold cfg) (s0, s1) fuel (nf_ask E) ltac:(lia)))). reflexivity.
Qed.
Lemma levels_S fuel E cfg n : 0 < cfg_query_batch cfg -> n + 2 <= fuel -> forall k s0 s1 first, levels_loop (S fuel) E cfg s0 s1 n first k = levels_loop fuel E cfg s0 s1 n first k.
Proof.
  intros Hb Hf. induction k as [|k IH]; intros s0 s1 first; cbn [levels_loop]; [reflexivity|].
  apply eq_bind.
  - destruct first; [|reflexivity]. unfold drv_run_flp_queries. apply eq_bind; [apply flp_loop_S; [exact Hb|lia]|reflexivity].
  - intros [t0 t1]. apply eq_bind; [apply level_S; exact Hf|]. intros [u0 u1]. apply IH.
Qed.
Lemma whh_S fuel E cfg s0 s1 n : 0 < cfg_query_batch cfg -> n + 2 <= fuel -> run_whh (S fuel) E cfg s0 s1 n = run_whh fuel E cfg s0 s1 n.
Proof.
  intros Hb Hf. unfold run_whh. apply eq_bind; [reflexivity|]. intros [t0 t1]. apply eq_bind; [reflexivity|intros bits]. destruct (bits =? 0); [reflexivity|].
  apply eq_bind; [apply levels_S; assumption|]. intros [u0 u1]. unfold run_level_last. apply eq_bind; [reflexivity|]. intros [[v0 v1] [a b]]. destruct a; try reflexivity. destruct b; try reflexivity.
  apply eq_bind; [reflexivity|intros _]. apply eq_bind; [reflexivity|intros keep]. apply eq_bind; [apply proofs_loop_S; [exact Hb|lia]|reflexivity].
Qed.
Lemma upload_inner_le batch : 0 < batch -> forall slots left, 0 < left -> 0 < slots -> fst (upload_inner slots left batch) < left.
Proof.
  intros Hb. assert (Hle : forall slots left, fst (upload_inner slots left batch) <= left).
  { induction slots as [|k IH]; intros left; cbn [upload_inner]; [cbn; lia|]. cbv zeta. specialize (IH (left - Nat.min left batch)). destruct (upload_inner k _ batch) as [l' z]. cbn [fst] in *. lia. }
  intros [|k] left Hl Hs; [lia|]. cbn [upload_inner]. cbv zeta. specialize (Hle k (left - Nat.min left batch)). destruct (upload_inner k _ batch) as [l' z]. cbn [fst] in *. lia.
Qed.
Lemma sizes_step fuel left batch : upload_sizes (S fuel) left batch =
  if 0 <? left then let '(left', sizes) := upload_inner 1000 left batch in let! rest := upload_sizes fuel left' batch in Ret (sizes ++ rest) else Ret [].
Proof. reflexivity. Qed.
Lemma sizes_S batch : 0 < batch -> forall fuel left, left <= fuel -> upload_sizes (S fuel) left batch = upload_sizes fuel left batch.
Proof.
  intros Hb. induction fuel as [|fuel IH]; intros left Hf.
  - replace left with 0 by lia. reflexivity.
  - destruct (0 <? left) eqn:Hl; [|cbn [upload_sizes]; rewrite Hl; reflexivity]. pose proof (proj1 (Nat.ltb_lt _ _) Hl) as Hlt.
    pose proof (upload_inner_le batch Hb 1000 left Hlt ltac:(lia)) as Hi.
    remember 1000 as slots eqn:Hsl.
    rewrite (sizes_step (S fuel)), (sizes_step fuel).
    rewrite Hl, <- Hsl. destruct (upload_inner slots left batch) as [l' z]. cbn [fst] in Hi. apply eq_bind; [apply IH; lia|reflexivity].
Qed.
Lemma upload_S fuel E cfg reports chs s0 s1 : 0 < cfg_add_batch cfg -> length chs <= fuel -> upload (S fuel) E cfg reports chs s0 s1 = upload fuel E cfg reports chs s0 s1.
Proof. intros Hb Hf. unfold upload. apply eq_bind; [apply sizes_S; assumption|reflexivity]. Qed.

Lemma stable {A} (run : nat -> outcome A) n : (forall fuel, n <= fuel -> run (S fuel) = run fuel) -> not_fuel (run n) -> ends_within n run.
Proof. intros Hs Hn. exists (run n). split; [exact Hn|]. intros fuel Hf. induction Hf as [|m Hm IH]; [reflexivity|]. rewrite Hs by exact Hm. exact IH. Qed.
Lemma never_short : forall cfg, 0 < cfg_query_batch cfg -> 0 < cfg_add_batch cfg -> forall fuel E clients pclients shard vk chs samples order s0 s1, length chs + 2 <= fuel ->
  main_whh fuel E cfg clients vk chs s0 s1 <> Panic PFuel /\ main_abm fuel E cfg clients vk chs samples order s0 s1 <> Panic PFuel /\
  main_pm fuel E shard cfg pclients vk chs s0 s1 <> Panic PFuel.
Proof.
  intros cfg Hq Ha fuel E clients pclients shard vk chs samples order s0 s1 Hf. unfold main_whh, main_abm, main_pm, reset_servers.
  destruct (negb _); [repeat split; discriminate|]. repeat split.
  - destruct (length _ =? 0); [discriminate|]. apply nf_bind; [apply nf_reports|intros reps _]. apply nf_bind; [apply nf_call2d|intros [t0 t1] _]. apply nf_bind; [apply nf_upload; [exact Ha|lia]|intros [u0 u1] _]. apply nf_whh; assumption.
  - destruct (length _ =? 0); [discriminate|]. apply nf_bind; [apply nf_reports|intros reps _]. apply nf_bind; [apply nf_call2d|intros [t0 t1] _]. apply nf_bind; [apply nf_upload; [exact Ha|lia]|intros [u0 u1] _].
    apply nf_bind; [unfold sample_attributes, unwrap_alpha; nf|intros attrs _]. unfold run_abm, step_by. destruct (_ =? 0); [discriminate|]. apply nf_abm.
  - destruct (length _ =? 0); [discriminate|]. apply nf_bind; [unfold gen_prio_report; nf|intros reps _]. apply nf_bind; [apply nf_call2d|intros [t0 t1] _]. apply nf_bind; [apply nf_upload; [exact Ha|lia]|intros [u0 u1] _].
    unfold run_pm, step_by. destruct (negb _); [discriminate|]. destruct (_ =? 0); [discriminate|]. apply nf_pm.
Qed.
Lemma all_end : forall E cfg clients pclients shard vk chs samples order s0 s1, 0 < cfg_query_batch cfg -> 0 < cfg_add_batch cfg ->
  ends_within (length chs + 2) (fun fuel => main_whh fuel E cfg clients vk chs s0 s1) /\
  ends_within (length chs + 2) (fun fuel => main_abm fuel E cfg clients vk chs samples order s0 s1) /\
  ends_within (length chs + 2) (fun fuel => main_pm fuel E shard cfg pclients vk chs s0 s1).
Proof.
  intros E cfg clients pclients shard vk chs samples order s0 s1 Hq Ha.
  destruct (never_short cfg Hq Ha (length chs + 2) E clients pclients shard vk chs samples order s0 s1 (Nat.le_refl _)) as (H1 & H2 & H3).
  split; [|split]; (apply stable; [|assumption]); intros fuel Hf; unfold main_whh, main_abm, main_pm; (destruct (negb _); [reflexivity|]); (destruct (length _ =? 0); [reflexivity|]); (apply eq_bind; [reflexivity|intros reps]); (apply eq_bind; [reflexivity|intros [t0 t1]]);
    (apply eq_bind; [apply upload_S; [exact Ha|lia]|intros [u0 u1]]); try reflexivity. apply whh_S; assumption.
Qed.

(** an upload with a batch size of zero goes round for ever *)
Lemma inner_zero : forall slots left, upload_inner slots left 0 = (left, []).
Proof. induction slots as [|k IH]; intros left; [reflexivity|]. cbn [upload_inner]. cbv zeta. rewrite Nat.min_0_r, Nat.sub_0_r, IH. reflexivity. Qed.
Lemma sizes_zero left : 0 < left -> forall fuel, upload_sizes fuel left 0 = Panic PFuel.
Proof.
  intros Hl. pose proof (proj2 (Nat.ltb_lt 0 left) Hl) as Hb. induction fuel as [|fuel IH]; [cbn [upload_sizes]; rewrite Hb; reflexivity|].
  rewrite sizes_step.
  rewrite Hb, inner_zero, IH. reflexivity.
Qed.
Lemma upload_zero E cfg reports chs s0 s1 : cfg_add_batch cfg = 0 -> chs <> [] -> endless (fun fuel => upload fuel E cfg reports chs s0 s1).
Proof. intros Hz Hc fuel. unfold upload. rewrite Hz, sizes_zero; [reflexivity|]. destruct chs; [contradiction|cbn; lia]. Qed.
