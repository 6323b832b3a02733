(** Proofs for C87. *)
From Verif Require Import Base BaseFacts Field Util UtilFacts Env Prg PrgFacts PrgSpecFacts2 Vidpf SpecVidpf SpecTree VidpfFacts VidpfEvalFacts VidpfTreeFacts VidpfTreeFacts3 VidpfTreeFacts4
  Merkle Collect Server Driver SpecCollect SpecServer SpecDriver SpecCheck SpecLevel SpecWhh CollectFacts CollectInv ServerFacts DriverFacts DriverPropFacts RefuteFacts MerkleFacts LevelFacts PairFacts WhhFacts WhhFacts2 FlpFacts WhhFacts3 WhhMain MetricsFacts
  Sched SchedFacts SchedRun System SystemFacts SpecTamper TamperFacts FinalFacts SuppressFacts SpecVeto.
From Coq Require Import Lia Bool.

(** *** requests other than FLP queries *)
Definition other (q : request) : Prop := match q with QRunFlpQueries _ _ => False | _ => True end.
Lemma other_upload fuel cfg rs chs : asks other (upload_p fuel cfg rs chs).
Proof.
  unfold upload_p. apply asks_bind; [exact I|]. intros sizes. revert chs. induction sizes as [|n sizes IH]; intros chs; cbn [upload_batches_p]; [exact I|].
  apply asks_bind; [|intros _; apply IH]. unfold add_reports_p. apply asks_bind; [exact I|]. intros ups. apply asks_done; exact I.
Qed.
Lemma other_level_loop len n thr : forall fuel split mal last, asks other (level_loop_p fuel len n thr split mal last).
Proof.
  induction fuel as [|f IH]; intros split_ mal last; cbn [level_loop_p]; [exact I|]. cbn [asks]. split; [exact I|]. split; [exact I|]. intros r0 r1.
  destruct r0; try exact I. destruct r1; try exact I. cbv zeta.
  repeat first [exact I | apply asks_bind; [exact I|]; intros ? | apply IH | match goal with |- asks _ (match ?x with _ => _ end) => destruct x end].
Qed.
Lemma other_proofs cfg n : forall fuel start, asks other (proofs_loop_p fuel cfg n start).
Proof.
  induction fuel as [|f IH]; intros start; cbn [proofs_loop_p]; destruct (start <? n); try exact I. cbv zeta. cbn [asks]. split; [exact I|]. split; [exact I|]. intros r0 r1.
  destruct r0; try exact I. destruct r1; try exact I. repeat (apply asks_bind; [exact I|]; intros ?). apply IH.
Qed.
Lemma other_level fuel cfg n : asks other (run_level_p fuel cfg n).
Proof. unfold run_level_p. apply asks_bind; [apply other_level_loop|]. intros keep. apply asks_done; exact I. Qed.
Lemma other_levels E fuel cfg n : forall levels, asks other (levels_loop_p fuel E cfg n false levels).
Proof. induction levels as [|l IH]; cbn [levels_loop_p]; [exact I|]. apply asks_bind; [exact I|]. intros _. apply asks_bind; [apply other_level|]. intros _. apply IH. Qed.
Lemma other_last fuel cfg n : asks other (run_level_last_p fuel cfg n).
Proof.
  unfold run_level_last_p. cbn [asks]. split; [exact I|]. split; [exact I|]. intros r0 r1. destruct r0; try exact I. destruct r1; try exact I.
  apply asks_bind; [exact I|]. intros _. apply asks_bind; [exact I|]. intros keep. apply asks_bind; [apply other_proofs|]. intros _. apply asks_bind; [apply asks_done; exact I|]. intros _.
  cbn [asks]. split; [exact I|]. split; [exact I|]. intros a0 a1. destruct a0; try exact I. destruct a1; exact I.
Qed.
Lemma about_quiet alter A (p : proc A) : about_queries alter -> asks other p -> quiet alter p.
Proof. intros Ha. apply asks_quiet. intros q Hq r. specialize (Ha q r). destruct q; try exact Ha. destruct Hq. Qed.
Lemma about_lie lie : about_queries (lie_verifiers lie).
Proof. intros q r. destruct q; first [reflexivity | exact I]. Qed.

(** *** the queries of a batch *)
Lemma rfq_batch E c : forall k a, 1 <= k -> (forall i, i < k -> exists x, run_flp_queries E c (a + i) (a + i + 1) = Ret [x]) ->
  exists v, run_flp_queries E c a (a + k) = Ret v /\ length v = k /\ forall i x, nth_error v i = Some x -> run_flp_queries E c (a + i) (a + i + 1) = Ret [x].
Proof.
  induction k as [|k IH]; intros a Hk H; [lia|]. destruct (H 0 ltac:(lia)) as [x Hx]. rewrite Nat.add_0_r in Hx. destruct k as [|k].
  - exists [x]. split; [exact Hx|]. split; [reflexivity|]. intros [|i] y Hy; [injection Hy as <-; rewrite Nat.add_0_r; exact Hx|destruct i; discriminate].
  - destruct (IH (a + 1)) as (v & Hv & Hl & Hn); [lia|intros i Hi; replace (a + 1 + i) with (a + S i) by lia; apply H; lia|].
    exists (x :: v). split; [apply (rfq_append E c a (a + 1)); [lia|lia|]; exists [x], v; split; [exact Hx|]; split; [replace (a + S (S k)) with (a + 1 + S k) by lia; exact Hv|reflexivity]|].
    split; [cbn; lia|]. intros [|i] y Hy; [injection Hy as <-; rewrite Nat.add_0_r; exact Hx|]. replace (a + S i) with (a + 1 + i) by lia. apply Hn. exact Hy.
Qed.
Lemma mapM_nth {A B} (f : A -> outcome B) (g : nat -> B) : forall l a, (forall i x, nth_error l i = Some x -> f x = Ret (g (a + i))) -> mapM f l = Ret (map g (seq a (length l))).
Proof.
  induction l as [|x l IH]; intros a H; cbn [mapM length seq map]; [reflexivity|]. rewrite (H 0 x eq_refl), Nat.add_0_r. cbn [bind]. rewrite (IH (S a)); [reflexivity|].
  intros i y Hy. replace (S a + i) with (a + S i) by lia. apply H. exact Hy.
Qed.
Lemma seq_map_app {A} (g : nat -> A) a b c : a <= b <= c -> map g (seq a (b - a)) ++ map g (seq b (c - b)) = map g (seq a (c - a)).
Proof. intros H. rewrite <- map_app. f_equal. replace (seq b (c - b)) with (seq (a + (b - a)) (c - b)) by (f_equal; lia). rewrite <- seq_app. f_equal. lia. Qed.

Section Veto.
Variables (E : env) (who : bool) (lie : nat -> list fld -> list fld) (ok : nat -> bool).
Notation run := (tampered E who (lie_verifiers lie)).

Lemma veto_quiet A (p : proc A) s0 s1 : asks other p -> run p s0 s1 = interp E p s0 s1.
Proof. intros H. apply quiet_same, about_quiet; [apply about_lie|exact H]. Qed.
Lemma veto_loop cfg s0 s1 n : 0 < cfg_query_batch cfg -> s_poison s0 = false -> s_poison s1 = false ->
  (forall i, i < n -> exists v0 v1, run_flp_queries E (s_coll s0) i (i + 1) = Ret [v0] /\ run_flp_queries E (s_coll s1) i (i + 1) = Ret [v1] /\
     flp_decide E (cfg_hist cfg) (add_shares (if who then lie i v0 else v0) (if who then v1 else lie i v1)) = Some (ok i)) ->
  forall fuel start keep, n - start <= fuel -> run (flp_loop_p fuel E cfg n start keep) s0 s1 = Ret (s0, s1, keep ++ map ok (seq start (n - start))).
Proof.
  intros Hb P0 P1 H. induction fuel as [|fuel IH]; intros start keep Hf; cbn [flp_loop_p]; destruct (start <? n) eqn:Hlt.
  - apply Nat.ltb_lt in Hlt. lia.
  - apply Nat.ltb_ge in Hlt. replace (n - start) with 0 by lia. cbn [seq map]. rewrite app_nil_r. reflexivity.
  - apply Nat.ltb_lt in Hlt. cbv zeta. set (k := Nat.min n (start + cfg_query_batch cfg) - start). assert (Hk : 1 <= k /\ start + k <= n) by (unfold k; lia).
    replace (Nat.min n (start + cfg_query_batch cfg)) with (start + k) by (unfold k; lia).
    destruct (rfq_batch E (s_coll s0) k start) as (v0 & Hv0 & L0 & N0); [lia|intros i Hi; destruct (H (start + i)) as (x & y & Hx & _); [lia|eauto]|].
    destruct (rfq_batch E (s_coll s1) k start) as (v1 & Hv1 & L1 & N1); [lia|intros i Hi; destruct (H (start + i)) as (x & y & _ & Hy & _); [lia|eauto]|].
    cbn [tampered]. rewrite (proj2 (call2_ret E s0 s1 _ _ s0 s1 (AFields v0) (AFields v1))).
    2:{ split; apply flp_request; try assumption; try lia; eauto. }
    cbn [bind]. set (w0 := if who then map (fun ix => lie (start + fst ix) (snd ix)) (numbered v0) else v0). set (w1 := if who then v1 else map (fun ix => lie (start + fst ix) (snd ix)) (numbered v1)).
    assert (M0 : forall i, nth_error w0 i = option_map (fun x => if who then lie (start + i) x else x) (nth_error v0 i)).
    { intros i. unfold w0. destruct who; [rewrite nth_error_map', numbered_nth; destruct (nth_error v0 i); reflexivity|destruct (nth_error v0 i); reflexivity]. }
    assert (M1 : forall i, nth_error w1 i = option_map (fun x => if who then x else lie (start + i) x) (nth_error v1 i)).
    { intros i. unfold w1. destruct who; [destruct (nth_error v1 i); reflexivity|rewrite nth_error_map', numbered_nth; destruct (nth_error v1 i); reflexivity]. }
    assert (K0 : length w0 = k) by (unfold w0, numbered; destruct who; rewrite ?map_length, ?combine_length, ?seq_length; lia).
    assert (K1 : length w1 = k) by (unfold w1, numbered; destruct who; rewrite ?map_length, ?combine_length, ?seq_length; lia).
    transitivity (run (dop PDone (debug_assert (dbg E) (length w0 =? length w1)); letp ks := PDone (mapM (flp_decide_pair E (cfg_hist cfg)) (combine w0 w1)) in
      flp_loop_p fuel E cfg n (start + cfg_query_batch cfg) (keep ++ ks)) s0 s1); [unfold w0, w1, lie_verifiers; destruct who; reflexivity|].
    rewrite tam_pure, debug_assert_true by (rewrite K0, K1; apply Nat.eqb_refl). cbn [bind]. rewrite tam_pure.
    rewrite (mapM_nth (flp_decide_pair E (cfg_hist cfg)) ok (combine w0 w1) start).
    2:{ intros i [x y] Hi. rewrite nth_error_combine, M0, M1 in Hi. destruct (nth_error v0 i) as [x0|] eqn:E0; [|discriminate]. destruct (nth_error v1 i) as [y0|] eqn:E1; [|discriminate]. cbn in Hi. injection Hi as <- <-.
        assert (Hik : i < k) by (rewrite <- L0; apply nth_error_Some; congruence). destruct (H (start + i) ltac:(lia)) as (a & b & Ha & Hb' & Hd). rewrite (N0 _ _ E0) in Ha. rewrite (N1 _ _ E1) in Hb'. injection Ha as ->. injection Hb' as ->.
        unfold flp_decide_pair. cbn [fst snd]. rewrite zip_add_combine. unfold add_shares in Hd. rewrite Hd. reflexivity. }
    cbn [bind]. rewrite combine_length, K0, K1, Nat.min_id. destruct (Nat.le_gt_cases (start + cfg_query_batch cfg) n) as [Hle|Hgt].
    + rewrite IH by lia. rewrite <- app_assoc. do 3 f_equal. replace k with (start + cfg_query_batch cfg - start) by (unfold k; lia). apply seq_map_app. lia.
    + rewrite IH by lia. rewrite <- app_assoc. replace (n - (start + cfg_query_batch cfg)) with 0 by lia. cbn [seq map]. rewrite app_nil_r. replace (n - start) with k by (unfold k; lia). reflexivity.
  - apply Nat.ltb_ge in Hlt. replace (n - start) with 0 by lia. cbn [seq map]. rewrite app_nil_r. reflexivity.
Qed.

Hypothesis Hok : env_ok E.
Variables (len bits : nat) (vk : bytes) (L : list entry).
Hypothesis Hgood : Forall (good_entry E len bits) L.
Hypothesis Hn : (Z.of_nat (length L) < 2 ^ 64)%Z.
Hypothesis Hflags : map e_ok L = map ok (seq 0 (length L)).
Hypothesis Hlied : forall i e, nth_error L i = Some e -> lied_verdict E len vk who (lie i) (e_r0 e) (e_r1 e) (ok i).
Variable cfg : config.
Hypothesis Hcfg : cfg_hist cfg = len.
Hypothesis Hbatch : 0 < cfg_query_batch cfg.

Lemma veto_flp fuel s0 s1 : side E len bits true (allowed L e_r0) [[]] s0 -> side E len bits false (allowed L e_r1) [[]] s1 ->
  c_vk (s_coll s0) = vk -> c_vk (s_coll s1) = vk -> length L <= fuel -> 1 <= bits ->
  exists t0 t1, run (flp_queries_p fuel E cfg (length L)) s0 s1 = Ret (t0, t1, tt) /\ pair_inv E len bits L [[]] t0 t1.
Proof.
  intros S0 S1 V0 V1 Hf Hb1.
  assert (Hd : forall p, length p <= 1 -> defined_at E len (allowed L e_r0) p /\ defined_at E len (allowed L e_r1) p) by (intros p Hp; apply (allowed_defined E Hok len bits L Hgood); lia).
  destruct (side_root E len bits L Hgood _ _ _ S0 (proj1 (Hd [] ltac:(cbn; lia)))) as [A0 R0]. destruct (side_root E len bits L Hgood _ _ _ S1 (proj2 (Hd [] ltac:(cbn; lia)))) as [A1 R1].
  assert (HL : run (flp_loop_p fuel E cfg (length L) 0 []) s0 s1 = Ret (s0, s1, [] ++ map ok (seq 0 (length L - 0)))).
  { apply veto_loop; [exact Hbatch|apply S0|apply S1| |lia]. intros i Hi. destruct (nth_error L i) as [e|] eqn:He; [|apply nth_error_None in He; lia].
    destruct (Hlied i e He) as (v0 & v1 & Hv0 & Hv1 & Hdec). destruct S0 as (P0 & I0 & L0 & D0 & Q0 & F0). destruct S1 as (P1 & I1 & L1 & D1 & Q1 & F1).
    exists v0, v1. rewrite Hcfg. split; [|split; [|exact Hdec]].
    - rewrite (rfq_one E (s_coll s0) i true (e_r0 e) A0); [rewrite I0, L0, V0, Hv0; reflexivity|rewrite L0, Q0; apply Hd; cbn; lia|rewrite L0, Q0; apply Hd; cbn; lia|rewrite Q0; unfold allowed; rewrite nth_error_map', He; reflexivity].
    - rewrite (rfq_one E (s_coll s1) i true (e_r1 e) A1); [rewrite I1, L1, V1, Hv1; reflexivity|rewrite L1, Q1; apply Hd; cbn; lia|rewrite L1, Q1; apply Hd; cbn; lia|rewrite Q1; unfold allowed; rewrite nth_error_map', He; reflexivity]. }
  destruct (handle_flags E len bits L _ _ _ S0) as (t0 & H0 & T0). destruct (handle_flags E len bits L _ _ _ S1) as (t1 & H1 & T1).
  exists t0, t1. split; [|split; assumption].
  unfold flp_queries_p. rewrite tam_bind, HL. cbn [bind app]. rewrite Nat.sub_0_r, <- Hflags. rewrite veto_quiet by (apply asks_done; exact I). rewrite interp_ask.
  rewrite (proj2 (call2_done_ret E s0 s1 _ _ t0 t1)) by eauto. reflexivity.
Qed.

Lemma veto_run fuel s0 s1 : uploaded true len bits vk (map e_r0 L) s0 -> uploaded false len bits vk (map e_r1 L) s1 ->
  cfg_bits cfg = Some bits -> 2 <= bits -> length L <= fuel -> existsb e_ok L = true ->
  (forall l, 1 <= l -> l + 1 < bits -> exists p, length p = l /\ heavy (threshold cfg) L p = true) ->
  exists t0 t1, run (run_whh_p fuel E cfg (length L)) s0 s1 = Ret (t0, t1, map (exact_result L len) (filter (heavy (threshold cfg) L) (all_paths bits))).
Proof.
  intros U0 U1 Hcb Hb Hf Hex Hlv. destruct (allowed_defined E Hok len bits L Hgood [] ltac:(cbn; lia)) as [D0 D1].
  destruct (handle_init E len bits L vk _ _ _ U0 D0) as (i0 & HI0 & S0 & V0). destruct (handle_init E len bits L vk _ _ _ U1 D1) as (i1 & HI1 & S1 & V1).
  unfold run_whh_p. rewrite tam_bind, veto_quiet by (apply asks_done; exact I). rewrite interp_ask.
  rewrite (proj2 (call2_done_ret _ _ _ _ _ i0 i1)) by eauto. cbn [bind unit_of]. rewrite Hcb. rewrite tam_pure. cbn [unwrap bind].
  rewrite (proj2 (Nat.eqb_neq bits 0)) by lia. rewrite tam_bind.
  assert (Hlast : forall level t0 t1, pair_inv E len bits L (frontier_at (threshold cfg) L level) t0 t1 -> S level = bits ->
    exists u0 u1, run_level_last fuel E cfg t0 t1 (length L) = Ret (u0, u1, map (exact_result L len) (filter (heavy (threshold cfg) L) (all_paths bits)))).
  { intros level t0 t1 Hi Hlb. destruct (last_step E Hok len bits L Hgood Hn cfg Hcfg fuel (length L) _ t0 t1 Hi Hbatch Hf) as (u0 & u1 & Hu).
    - intros p Hp. apply frontier_length in Hp. lia.
    - exists u0, u1. rewrite Hu, frontier_next, Hlb. destruct bits; [lia|reflexivity]. }
  replace (bits - 1) with (S (bits - 2)) by lia. cbn [levels_loop_p]. rewrite tam_bind.
  destruct (veto_flp fuel i0 i1 S0 S1 V0 V1 Hf ltac:(lia)) as (t0 & t1 & Ht & Hi). rewrite Ht. cbn [bind].
  assert (Hf1 : 1 <= fuel) by (apply (existsb_fuel E len bits L Hgood Hn cfg Hcfg Hbatch); assumption).
  destruct (level_step E Hok len bits L Hgood Hn fuel cfg (length L) [[]] 0 t0 t1 Hi) as (u0 & u1 & Hu & Hiu); try assumption; try lia.
  { discriminate. } { intros p [<-|[]]. reflexivity. }
  rewrite tam_bind, veto_quiet by apply other_level. rewrite interp_level, Hu. cbn [bind unit_of]. change [[]] with (frontier_at (threshold cfg) L 0) in Hiu. rewrite frontier_next in Hiu.
  destruct (levels_run E Hok len bits L Hgood Hn cfg Hcfg fuel (length L) Hf1 Hex (bits - 2) 1 u0 u1 Hiu) as (w0 & w1 & Hw & Hiw).
  { lia. } { intros l Hl. apply frontier_nonempty. apply Hlv; lia. }
  rewrite veto_quiet by apply other_levels. rewrite interp_levels, Hw. cbn [bind unit_of]. rewrite veto_quiet by apply other_last. rewrite interp_last. apply (Hlast (1 + (bits - 2))); [exact Hiw|lia].
Qed.
End Veto.

Lemma numbered_length {A} (l : list A) : length (numbered l) = length l.
Proof. unfold numbered. rewrite combine_length, seq_length. lia. Qed.
(** *** honest keys *)
Section Main.
Variable E : env.
Hypothesis Hok : env_ok E.
Variables (len bits : nat) (vk : bytes) (clients : list client) (reports : list plaintext_report) (chs : list choice).
Hypothesis Hb : 1 <= bits.
Hypothesis Hrep : mapM (gen_report E len) clients = Ret reports.
Hypothesis Hcl : Forall (good_client E len bits vk) clients.
Hypothesis Hch : Forall (good_choice E len vk reports) chs.
Variable ok : nat -> bool.
Definition entry_at (ic : nat * choice) : entry :=
  {| e_ok := ok (fst ic); e_r0 := share0 reports (snd ic); e_r1 := share1 reports (snd ic); e_alpha := alpha_of clients (snd ic); e_beta := one_hot len (bucket_of clients (snd ic)) |}.
Notation L := (map entry_at (numbered chs)).
Notation bs := (ballots_at ok clients chs).

Lemma numbered_in (ic : nat * choice) : In ic (numbered chs) -> In (snd ic) chs.
Proof. destruct ic as [i ch]. unfold numbered. apply in_combine_r. Qed.
Lemma veto_good : Forall (good_entry E len bits) L.
Proof.
  apply Forall_forall. intros e He. apply in_map_iff in He. destruct He as (ic & <- & Hin). apply numbered_in in Hin.
  destruct (upload_facts E Hok len bits vk clients reports chs Hb Hrep Hcl Hch _ Hin) as (cl & r0 & r1 & Hc & Hu & Hlt & Ha & W0 & W1 & Hv & Hk).
  unfold good_entry, entry_at, share0, share1, alpha_of, bucket_of. cbn [e_ok e_r0 e_r1 e_alpha e_beta]. rewrite Hu, Hc.
  split; [exact W0|]. split; [exact W1|]. intros _. split; [exact Hk|]. split; [exact Ha|]. apply one_hot_length.
Qed.
Lemma veto_supporters p : map (fun e => (e_alpha e, e_beta e)) (supporters L p) = map (fun b => (fst b, one_hot len (snd b))) (filter (fun b => is_prefix p (fst b)) bs).
Proof.
  unfold ballots_at. assert (H : forall l, (forall ic, In ic l -> In (snd ic) chs) -> map (fun e => (e_alpha e, e_beta e)) (supporters (map entry_at l) p) =
     map (fun b => (fst b, one_hot len (snd b))) (filter (fun b => is_prefix p (fst b)) (flat_map (fun ic => if ok (fst ic) then match nth_error clients (ch_idx (snd ic)) with Some cl => [(cl_alpha cl, cl_bucket cl)] | None => [] end else []) l))).
  { induction l as [|[i ch] l IH]; intros Hl; [reflexivity|]. specialize (IH (fun c Hc => Hl c (or_intror Hc))).
    destruct (upload_facts E Hok len bits vk clients reports chs Hb Hrep Hcl Hch ch (Hl _ (or_introl eq_refl))) as (cl & r0 & r1 & Hc & _).
    assert (Ha : alpha_of clients ch = cl_alpha cl) by (unfold alpha_of; rewrite Hc; reflexivity). assert (Hbk : bucket_of clients ch = cl_bucket cl) by (unfold bucket_of; rewrite Hc; reflexivity).
    cbn [map flat_map fst snd]. rewrite Hc, filter_app, map_app, <- IH. unfold supporters. cbn [filter entry_at e_ok e_alpha fst snd]. rewrite Ha.
    destruct (ok i); [|reflexivity]. cbn [andb filter fst]. destruct (is_prefix p (cl_alpha cl)) eqn:Hp; [|reflexivity]. cbn [map fst snd app e_alpha e_beta]. unfold entry_at at 1 2. cbn [e_alpha e_beta fst snd]. rewrite Ha, Hbk. reflexivity. }
  apply H. intros ic. apply numbered_in.
Qed.
Lemma veto_count p : count L p = tally bs p.
Proof. unfold count, tally. pose proof (f_equal (@length _) (veto_supporters p)) as H. rewrite !map_length in H. congruence. Qed.
Lemma veto_weight p j : j < len -> weight L p j = of_Z (tally_bucket bs p j).
Proof.
  intros Hj. unfold weight, tally_bucket.
  assert (Hm : map (fun e => nth j (e_beta e) (of_Z 0)) (supporters L p) =
    map (fun b : list bool * nat => if snd b =? j then of_Z 1 else of_Z 0) (filter (fun b => is_prefix p (fst b)) bs)).
  { pose proof (f_equal (map (fun ab : list bool * list fld => nth j (snd ab) (of_Z 0))) (veto_supporters p)) as H. rewrite !map_map in H. cbn [snd] in H. rewrite H.
    apply map_ext. intros b. apply (one_hot_nth len). exact Hj. }
  rewrite Hm, (fsum_filter (fun b : list bool * nat => snd b =? j) (fun _ => of_Z 1)), fsum_ones, filter_filter. reflexivity.
Qed.
Lemma veto_results thr l : map (exact_result L len) (filter (heavy thr L) l) = map (tally_result bs len) (filter (popular thr bs) l).
Proof.
  assert (Hf : filter (heavy thr L) l = filter (popular thr bs) l) by (apply filter_ext; intros p; unfold heavy, popular; rewrite veto_count; reflexivity).
  rewrite Hf. apply map_ext. intros p. unfold exact_result, tally_result. rewrite veto_count. do 2 f_equal. apply map_ext_in. intros j Hj. apply in_seq in Hj. apply veto_weight. lia.
Qed.
Lemma veto_flags : map e_ok L = map ok (seq 0 (length L)).
Proof. rewrite map_map, map_length, numbered_length. cbn [entry_at e_ok]. unfold numbered. rewrite <- (map_map fst ok). f_equal. apply map_fst_combine. apply seq_length. Qed.

Variables (who : bool) (lie : nat -> list fld -> list fld).
Lemma veto_prelude fuel cfg s0 s1 : cfg_hist cfg = len -> 0 < cfg_add_batch cfg -> hist_ok len = true -> clients <> [] ->
  length chs <= fuel -> running 0 bits s0 -> (exists id, id <> 0%Z /\ running id bits s1) ->
  exists u0 u1, tampered E who (lie_verifiers lie) (main_whh_p fuel E cfg clients vk chs) s0 s1 = tampered E who (lie_verifiers lie) (run_whh_p fuel E cfg (length L)) u0 u1 /\
  uploaded true len bits vk (map e_r0 L) u0 /\ uploaded false len bits vk (map e_r1 L) u1.
Proof.
  intros Hh Ha Hist Hne Hf (P0 & I0 & B0) (id & Hid & P1 & I1 & B1).
  unfold main_whh_p. rewrite Hh, Hist. cbn [negb]. destruct (length clients =? 0) eqn:Hz; [apply Nat.eqb_eq, length_zero_iff_nil in Hz; contradiction|]. cbn [tampered]. rewrite (alone_reports E), Hrep. cbn [bind].
  assert (Hreset : forall s, s_poison s = false -> handle E s (QReset vk len) = (set_coll s (coll_new len (s_id s) (s_bits s) vk), Ret ADone)).
  { intros s Hp. apply handle_ret. split; [reflexivity|]. split; [exact Hp|]. eexists. split; [|reflexivity]. cbn [body]. rewrite Hist. reflexivity. }
  rewrite tam_bind, veto_quiet by (cbn; auto). rewrite interp_reset.
  unfold reset_servers. rewrite Hh. rewrite (proj2 (call2_done_ret _ _ _ _ _ _ _)) by (do 2 eexists; split; apply Hreset; assumption). cbn [bind unit_of].
  rewrite tam_bind, veto_quiet by apply other_upload. rewrite interp_upload.
  rewrite (upload_spec fuel E cfg reports chs _ (set_coll s0 (coll_new len (s_id s0) (s_bits s0) vk)) (set_coll s1 (coll_new len (s_id s1) (s_bits s1) vk)) Ha Hf P0 P1 (uploads_ret E Hok len bits vk clients reports chs Hb Hrep Hcl Hch)). cbn [bind unit_of]. rewrite !map_map. cbn [fst snd].
  exists (with_reports (set_coll s0 (coll_new len (s_id s0) (s_bits s0) vk)) (map (share0 reports) chs)), (with_reports (set_coll s1 (coll_new len (s_id s1) (s_bits s1) vk)) (map (share1 reports) chs)).
  split; [rewrite map_length, numbered_length; reflexivity|].
  assert (Hs : forall g : choice -> report_share, map (fun ic : nat * choice => g (snd ic)) (numbered chs) = map g chs).
  { intros g. rewrite <- (map_map snd g). f_equal. unfold numbered. apply map_snd_combine. apply seq_length. }
  split.
  - unfold uploaded. cbn. rewrite I0, B0, P0. cbn [entry_at e_r0]. rewrite (Hs (share0 reports)), !map_map. repeat (split; [reflexivity|]). reflexivity.
  - unfold uploaded. cbn. rewrite I1, B1, P1. cbn [entry_at e_r1]. rewrite (Hs (share1 reports)), !map_map. split; [reflexivity|]. split; [apply Z.eqb_neq; exact Hid|]. repeat (split; [reflexivity|]). reflexivity.
Qed.
End Main.

Lemma verdicts_overturned E len bits vk clients reports chs who lie ok fuel cfg s0 s1 :
  env_ok E -> 2 <= bits -> mapM (gen_report E len) clients = Ret reports ->
  Forall (good_client E len bits vk) clients -> Forall (good_choice E len vk reports) chs ->
  (forall i ch r0 r1, nth_error chs i = Some ch -> make_upload reports ch = Ret (r0, r1) -> lied_verdict E len vk who (lie i) r0 r1 (ok i)) ->
  cfg_hist cfg = len -> cfg_bits cfg = Some bits -> 0 < cfg_query_batch cfg -> 0 < cfg_add_batch cfg -> hist_ok len = true -> clients <> [] ->
  length chs <= fuel -> (Z.of_nat (length chs) < 2 ^ 64)%Z -> running 0 bits s0 -> (exists id, id <> 0%Z /\ running id bits s1) ->
  (exists i, i < length chs /\ ok i = true) ->
  (forall l, 1 <= l -> l + 1 < bits -> exists p, length p = l /\ popular (threshold cfg) (ballots_at ok clients chs) p = true) ->
  exists t0 t1, tampered E who (lie_verifiers lie) (main_whh_p fuel E cfg clients vk chs) s0 s1 =
    Ret (t0, t1, map (tally_result (ballots_at ok clients chs) len) (filter (popular (threshold cfg) (ballots_at ok clients chs)) (all_paths bits))).
Proof.
  intros Hok Hb Hrep Hcl Hch Hlie Hh Hbits Hq Ha Hist Hne Hf Hn R0 R1 He Hpop.
  assert (Hb1 : 1 <= bits) by lia. pose proof (upload_facts E Hok len bits vk clients reports chs Hb1 Hrep Hcl Hch) as Huf.
  destruct (veto_prelude E Hok len bits vk clients reports chs Hb1 Hrep Hcl Hch ok who lie fuel cfg s0 s1 Hh Ha Hist Hne Hf R0 R1) as (u0 & u1 & -> & U0 & U1).
  rewrite <- (veto_results E Hok len bits vk clients reports chs Hb1 Hrep Hcl Hch ok).
  assert (HL : length (map (entry_at len clients reports ok) (numbered chs)) = length chs) by (rewrite map_length; apply numbered_length).
  apply (veto_run E who lie ok Hok len bits vk _ (veto_good E Hok len bits vk clients reports chs Hb1 Hrep Hcl Hch ok)); try assumption; rewrite ?HL; try assumption.
  - rewrite <- HL. exact (veto_flags len clients reports chs ok).
  - intros i e Hi. rewrite nth_error_map', numbered_nth in Hi. destruct (nth_error chs i) as [ch|] eqn:Hc; [|discriminate]. cbn [option_map] in Hi. injection Hi as <-. cbn [entry_at e_r0 e_r1 snd].
    destruct (Huf ch (nth_error_In _ _ Hc)) as (cl & r0 & r1 & _ & Hu & _). unfold share0, share1. rewrite Hu. exact (Hlie i ch r0 r1 Hc Hu).
  - destruct He as (i & Hi & Ho). apply existsb_exists. destruct (nth_error chs i) as [ch|] eqn:Hc; [|apply nth_error_None in Hc; lia].
    exists (entry_at len clients reports ok (i, ch)). split; [|exact Ho]. apply in_map. apply (nth_error_In _ i). rewrite numbered_nth, Hc. reflexivity.
  - intros l Hl1 Hl2. destruct (Hpop l Hl1 Hl2) as (p & Hp & Hpp). exists p. split; [exact Hp|]. unfold heavy. rewrite (veto_count E Hok len bits vk clients reports chs Hb1 Hrep Hcl Hch ok). exact Hpp.
Qed.

(** *** strings of one bit *)
Lemma one_bit_unchecked E who alter fuel cfg clients vk chs s0 s1 : about_queries alter -> cfg_bits cfg = Some 1 ->
  tampered E who alter (main_whh_p fuel E cfg clients vk chs) s0 s1 = main_whh fuel E cfg clients vk chs s0 s1.
Proof.
  intros Ha Hb. rewrite <- interp_main_whh. apply quiet_same, about_quiet; [exact Ha|]. unfold main_whh_p. destruct (negb _); [exact I|]. destruct (length clients =? 0); [exact I|]. cbn [asks]. intros reports.
  apply asks_bind; [cbn; auto|]. intros _. apply asks_bind; [apply other_upload|]. intros _. unfold run_whh_p. apply asks_bind; [apply asks_done; exact I|]. intros _. rewrite Hb. cbn [unwrap pbind Nat.eqb Nat.sub levels_loop_p].
  apply other_last.
Qed.
