(** Proofs for C71. *)
From Verif Require Import Base BaseFacts Field Util UtilFacts Env Prg Vidpf SpecVidpf SpecTree VidpfFacts VidpfTreeFacts VidpfTreeFacts3 Merkle Collect Server Driver Modes SpecCollect SpecServer SpecDriver SpecCheck SpecLevel SpecWhh
  CollectFacts CollectInv ServerFacts DriverFacts DriverPropFacts MerkleFacts LevelFacts PairFacts WhhFacts WhhFacts2 FlpFacts WhhFacts3 RefuteFacts WhhMain SpecBatch.
From Coq Require Import Lia.

Lemma flp_loop_zero E cfg n : cfg_query_batch cfg = 0 -> forall fuel s0 s1 start keep t, start < n -> flp_loop fuel E cfg s0 s1 n start keep <> Ret t.
Proof.
  intros Hz. induction fuel as [|fuel IH]; intros s0 s1 start keep t Hs; cbn [flp_loop]; rewrite (proj2 (Nat.ltb_lt _ _) Hs); [discriminate|].
  destruct (call2 E s0 s1 _ _) as [[[t0 t1] [a b]]|]; [|discriminate]. cbn [bind]. destruct a; try discriminate. destruct b; try discriminate.
  destruct (debug_assert (dbg E) _); [|discriminate]. cbn [bind]. destruct (mapM _ _); [|discriminate]. cbn [bind]. apply IH. lia.
Qed.
Lemma proofs_loop_zero E cfg n : cfg_query_batch cfg = 0 -> forall fuel s0 s1 start t, start < n -> proofs_loop fuel E cfg s0 s1 n start <> Ret t.
Proof.
  intros Hz. induction fuel as [|fuel IH]; intros s0 s1 start t Hs; cbn [proofs_loop]; rewrite (proj2 (Nat.ltb_lt _ _) Hs); [discriminate|].
  destruct (call2 E s0 s1 _ _) as [[[t0 t1] [a b]]|]; [|discriminate]. cbn [bind]. destruct a; try discriminate. destruct b; try discriminate.
  destruct (assert_ _); [|discriminate]. cbn [bind]. destruct (assert_ _); [|discriminate]. cbn [bind]. apply IH. lia.
Qed.
Lemma run_zero fuel E cfg s0 s1 n t : cfg_query_batch cfg = 0 -> 0 < n -> run_whh fuel E cfg s0 s1 n <> Ret t.
Proof.
  intros Hz Hn. unfold run_whh. destruct (call2_done _ _ _ _ _) as [[a b]|]; [|discriminate]. cbn [bind]. destruct (unwrap _) as [bits|]; [|discriminate]. cbn [bind].
  destruct (bits =? 0); [discriminate|]. destruct (bits - 1) as [|k]; cbn [levels_loop bind].
  - unfold run_level_last. destruct (call2 E a b _ _) as [[[t0 t1] [x y]]|]; [|discriminate]. cbn [bind]. destruct x; try discriminate. destruct y; try discriminate.
    destruct (assert_ _); [|discriminate]. cbn [bind]. destruct (keep_values _ _ _ _); [|discriminate]. cbn [bind].
    destruct (proofs_loop _ _ _ _ _ _ _) as [u|] eqn:Hu; [|discriminate]. exfalso. eapply proofs_loop_zero; eassumption.
  - unfold drv_run_flp_queries. destruct (flp_loop _ _ _ _ _ _ _ _) as [u|] eqn:Hu; [|discriminate]. exfalso. eapply flp_loop_zero; eassumption.
Qed.
Lemma step_zero n cfg : cfg_query_batch cfg = 0 -> step_by n (cfg_query_batch cfg) = Panic PArith.
Proof. intros ->. reflexivity. Qed.

Lemma batch_zero : forall cfg, cfg_query_batch cfg = 0 -> forall fuel E clients pclients shard vk chs samples order s0 s1, chs <> [] ->
  (forall t, main_whh fuel E cfg clients vk chs s0 s1 <> Ret t) /\ (forall t, main_abm fuel E cfg clients vk chs samples order s0 s1 <> Ret t) /\
  (forall t, main_pm fuel E shard cfg pclients vk chs s0 s1 <> Ret t).
Proof.
  intros cfg Hz fuel E clients pclients shard vk chs samples order s0 s1 Hc. assert (Hn : 0 < length chs) by (destruct chs; [contradiction|cbn; lia]).
  unfold main_whh, main_abm, main_pm. destruct (negb _); [repeat split; discriminate|]. repeat split; intros t.
  - destruct (length _ =? 0); [discriminate|]. destruct (mapM _ _) as [reps|]; [|discriminate]. cbn [bind]. destruct (reset_servers _ _ _ _ _) as [[a b]|]; [|discriminate]. cbn [bind]. destruct (upload _ _ _ _ _ _ _) as [[x y]|]; [|discriminate]. cbn [bind].
    apply run_zero; assumption.
  - destruct (length _ =? 0); [discriminate|]. destruct (mapM _ _) as [reps|]; [|discriminate]. cbn [bind]. destruct (reset_servers _ _ _ _ _) as [[a b]|]; [|discriminate]. cbn [bind]. destruct (upload _ _ _ _ _ _ _) as [[x y]|]; [|discriminate]. cbn [bind].
    destruct (sample_attributes _ _); [|discriminate]. cbn [bind]. unfold run_abm. rewrite (step_zero _ _ Hz). discriminate.
  - destruct (length _ =? 0); [discriminate|]. destruct (mapM _ _) as [reps|]; [|discriminate]. cbn [bind]. destruct (reset_servers _ _ _ _ _) as [[a b]|]; [|discriminate]. cbn [bind]. destruct (upload _ _ _ _ _ _ _) as [[x y]|]; [|discriminate]. cbn [bind].
    unfold run_pm. destruct (negb _); [discriminate|]. rewrite (step_zero _ _ Hz). discriminate.
Qed.

Section Loop.
Variable E : env.
Lemma pre_ret c : at_root E c -> defined_at E (c_len c) (c_reports c) [false] -> defined_at E (c_len c) (c_reports c) [true] -> exists x, flp_pre E c = Ret x.
Proof.
  intros [Hf Hd0] Hdl Hdr.
  assert (Hn : exists n0, c_frontier c = [n0] /\ node_is E (c_len c) (c_reports c) [] n0).
  { inversion Hf as [|p n ps f Hn Hrest Hp Hfe]. inversion Hrest. subst. eauto. }
  destruct Hn as (n0 & Hfr & Hn0). unfold flp_pre. rewrite Hfr. cbn [index nth_error bind length]. rewrite (proj1 Hn0). rewrite (proj2 (assert_true _)) by reflexivity. cbn [bind].
  rewrite debug_assert_true by reflexivity. cbn [bind].
  rewrite (proj2 (make_tree_node_iff E c [] n0 false _ Hn0 Hd0) (conj Hdl eq_refl)). cbn [bind].
  rewrite (proj2 (make_tree_node_iff E c [] n0 true _ Hn0 Hd0) (conj Hdr eq_refl)). cbn [bind].
  destruct Hn0 as (_ & _ & ->). rewrite debug_assert_true by (cbn [mknode tn_values]; unfold words_of; rewrite !map_length; apply Nat.eqb_refl).
  cbn [bind]. eauto.
Qed.
Lemma ask_nothing s : dbg E = false -> s_poison s = false -> (exists x, flp_pre E (s_coll s) = Ret x) -> handle E s (QRunFlpQueries 0 0) = (s, Ret (AFields [])).
Proof.
  intros Hd Hs ([[n nl] nr] & Hp). apply handle_ret. split; [reflexivity|]. split; [exact Hs|]. exists (s_coll s). split; [|symmetry; apply set_coll_id].
  cbn [body]. rewrite Hd. cbn [debug_assert bind]. rewrite run_flp_queries_split, Hp. cbn [bind].
  replace (filter (fun i => (0 <=? i) && (i <? 0)) (seq 0 n)) with (@nil nat); [reflexivity|]. symmetry. generalize (seq 0 n). induction l as [|i l IH]; [reflexivity|]. cbn [filter]. destruct i; cbn; exact IH.
Qed.
End Loop.

Lemma endless_run E len bits L vk cfg s0 s1 : env_ok E -> dbg E = false -> Forall (good_entry E len bits) L -> cfg_bits cfg = Some bits -> 2 <= bits -> L <> [] ->
  uploaded true len bits vk (map e_r0 L) s0 -> uploaded false len bits vk (map e_r1 L) s1 -> cfg_query_batch cfg = 0 ->
  endless (fun fuel => run_whh fuel E cfg s0 s1 (length L)).
Proof.
  intros Hok Hd Hgood Hcb Hb HL U0 U1 Hz fuel.
  assert (Hdef : forall p, length p <= 1 -> defined_at E len (allowed L e_r0) p /\ defined_at E len (allowed L e_r1) p) by (intros p Hp; eapply allowed_defined; [exact Hok|exact Hgood|lia]).
  destruct (Hdef [] ltac:(cbn; lia)) as [D0 D1].
  destruct (handle_init _ _ _ _ _ _ _ _ U0 D0) as (i0 & HI0 & S0 & V0). destruct (handle_init _ _ _ _ _ _ _ _ U1 D1) as (i1 & HI1 & S1 & V1).
  unfold run_whh. rewrite (proj2 (call2_done_ret _ _ _ _ _ i0 i1)) by eauto. cbn [bind]. rewrite Hcb. cbn [unwrap bind].
  rewrite (proj2 (Nat.eqb_neq bits 0)) by lia. replace (bits - 1) with (S (bits - 2)) by lia. cbn [levels_loop]. unfold drv_run_flp_queries.
  assert (Hq0 : handle E i0 (QRunFlpQueries 0 0) = (i0, Ret (AFields []))).
  { destruct S0 as (P & I & Hl & De & Q & F). apply ask_nothing; [exact Hd|exact P|]. apply pre_ret; [split; rewrite Hl, Q; assumption| |]; rewrite Hl, Q; apply Hdef; cbn; lia. }
  assert (Hq1 : handle E i1 (QRunFlpQueries 0 0) = (i1, Ret (AFields []))).
  { destruct S1 as (P & I & Hl & De & Q & F). apply ask_nothing; [exact Hd|exact P|]. apply pre_ret; [split; rewrite Hl, Q; assumption| |]; rewrite Hl, Q; apply Hdef; cbn; lia. }
  assert (Hlp : forall fuel keep, flp_loop fuel E cfg i0 i1 (length L) 0 keep = Panic PFuel); [|rewrite Hlp; reflexivity].
  assert (Hn : 0 < length L) by (destruct L; [contradiction|cbn; lia]).
  clear fuel. induction fuel as [|fuel IH]; intros keep; cbn [flp_loop]; rewrite (proj2 (Nat.ltb_lt _ _) Hn); [reflexivity|].
  rewrite Hz, Nat.add_0_r, Nat.min_0_r. rewrite (proj2 (call2_ret _ _ _ _ _ _ _ _ _) (conj Hq0 Hq1)). cbn [bind length Nat.eqb].
  rewrite debug_assert_true by reflexivity. cbn [bind combine mapM]. apply IH.
Qed.

Lemma disabled_by_zero E s : dbg E = true -> s_poison s = false -> handle E s (QRunFlpQueries 0 0) = (set_poison s, Panic PDebugAssert) /\ handle E s (QGetProofs 0 0) = (set_poison s, Panic PDebugAssert).
Proof. intros Hd Hs. split; (apply handle_body_panic; [exact Hs|reflexivity|]; cbn [body]; rewrite Hd; reflexivity). Qed.
