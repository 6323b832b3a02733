(** Lemmas in the exact shape of the driver properties, and their concrete cases. *)
From Verif Require Import Base BaseFacts Field Util UtilFacts Env Prg Vidpf VidpfFacts Merkle Collect Server Driver
  SpecCollect SpecServer SpecDriver CollectFacts CollectInv ServerFacts DriverFacts RefEnv VidpfPropFacts ExRun.

(** *** C23 *)
Lemma zip_add_combine a : forall b, zip_add a b = map (fun xy => fadd (fst xy) (snd xy)) (combine a b).
Proof. induction a as [|x a IH]; intros [|y b]; cbn; [reflexivity..|]. rewrite IH. reflexivity. Qed.

Lemma rfq_singles E c n : root_of c n -> forall k a v, a + k = n ->
  (run_flp_queries E c a n = Ret v <->
   length v = k /\ (0 < k \/ exists w, run_flp_queries E c a n = Ret w) /\ forall i x, nth_error v i = Some x -> run_flp_queries E c (a + i) (a + i + 1) = Ret [x]).
Proof.
  intros (node & Hf & Hn) k. induction k as [|k IH]; intros a v Hak.
  - split.
    + intros H. split; [|split; [right; eauto|]].
      * apply rfq_length in H; [|lia]. destruct H as (n0 & Hn0 & Hl). rewrite Hf in Hn0. injection Hn0 as <-. lia.
      * apply rfq_length in H; [|lia]. destruct H as (n0 & Hn0 & Hl). rewrite Hf in Hn0. injection Hn0 as <-.
        assert (length v = 0) by lia. destruct v; [intros []; discriminate|discriminate].
    + intros (Hl & [H|[w H]] & _); [lia|]. pose proof H as H2. apply rfq_length in H2; [|lia]. destruct H2 as (n0 & Hn0 & Hl2).
      rewrite Hf in Hn0. injection Hn0 as <-. assert (length w = 0) by lia. destruct v, w; try discriminate. exact H.
  - split.
    + intros H. apply (rfq_append E c a (a + 1) n) in H; [|lia|lia]. destruct H as (v1 & v2 & H1 & H2 & ->).
      pose proof (rfq_length E c a (a + 1) v1 ltac:(lia) H1) as (n0 & Hn0 & Hl1). rewrite Hf in Hn0. injection Hn0 as <-.
      destruct v1 as [|x [|y v1]]; cbn [length] in Hl1; try lia.
      apply (IH (a + 1) v2) in H2; [|lia]. destruct H2 as (Hl2 & _ & H2). split; [cbn; lia|]. split; [left; lia|].
      intros [|i] z Hz; cbn [app nth_error] in Hz.
      * injection Hz as <-. rewrite Nat.add_0_r. exact H1.
      * apply H2 in Hz. replace (a + S i) with (a + 1 + i) by lia. exact Hz.
    + intros (Hl & _ & H). destruct v as [|x v]; [discriminate|]. apply (rfq_append E c a (a + 1) n); [lia|lia|].
      exists [x], v. split; [specialize (H 0 x eq_refl); rewrite Nat.add_0_r in H; exact H|]. split; [|reflexivity].
      apply (IH (a + 1) v); [lia|]. split; [cbn in Hl; lia|]. split.
      * destruct k; [|left; lia]. right. specialize (H 0 x eq_refl). rewrite Nat.add_0_r in H.
        rewrite !run_flp_queries_split in *. destruct (flp_pre E c) as [[[m nl] nr]|p]; cbn [bind] in *; [|discriminate].
        exists []. rewrite filter_range by lia. replace (Nat.min n (0 + m) - (a + 1)) with 0 by lia. reflexivity.
      * intros i z Hz. replace (a + 1 + i) with (a + S i) by lia. apply (H (S i)). exact Hz.
Qed.

Lemma root_of_same c0 c1 n : root_of c0 n -> root_of c1 n -> same_root_size c0 c1.
Proof. intros (a & H0 & L0) (b & H1 & L1) n0 n1 Hn0 Hn1. rewrite H0 in Hn0. rewrite H1 in Hn1. injection Hn0 as <-. injection Hn1 as <-. congruence. Qed.

Lemma flp_decisions fuel E cfg s0 s1 n s0' s1' keep :
  0 < cfg_query_batch cfg -> n <= fuel -> s_poison s0 = false -> s_poison s1 = false ->
  root_of (s_coll s0) n -> root_of (s_coll s1) n ->
  flp_loop fuel E cfg s0 s1 n 0 [] = Ret (s0', s1', keep) <->
  s0' = s0 /\ s1' = s1 /\ length keep = n /\
  forall i b, nth_error keep i = Some b -> flp_verdict E (cfg_hist cfg) (s_coll s0) (s_coll s1) i b.
Proof.
  intros Hb Hf H0 H1 R0 R1. destruct n as [|n].
  { replace (flp_loop fuel E cfg s0 s1 0 0 []) with (@Ret (server * server * list bool) (s0, s1, [])) by (destruct fuel; reflexivity).
    split; [intros H; injection H as <- <- <-; repeat split; intros []; discriminate|].
    intros (-> & -> & Hl & _). destruct keep; [reflexivity|discriminate]. }
  rewrite (flp_loop_spec E cfg s0 s1 (S n) Hb H0 H1 (root_of_same _ _ _ R0 R1) fuel 0 [] ltac:(lia) ltac:(lia)).
  split; intros (-> & -> & H); (split; [reflexivity|]); (split; [reflexivity|]).
  - destruct H as (v0 & v1 & ks & Hv0 & Hv1 & Hm & ->). cbn [app].
    apply (rfq_singles E _ _ R0 (S n) 0 v0 eq_refl) in Hv0. apply (rfq_singles E _ _ R1 (S n) 0 v1 eq_refl) in Hv1.
    destruct Hv0 as (L0 & _ & Q0), Hv1 as (L1 & _ & Q1).
    pose proof (mapM_length _ _ _ Hm) as Hl. rewrite combine_length in Hl. split; [lia|].
    intros i b Hi. apply mapM_inv in Hm.
    assert (Hil : i < length ks) by (apply nth_error_Some; congruence).
    destruct (nth_error v0 i) as [x|] eqn:Hx; [|apply nth_error_None in Hx; lia].
    destruct (nth_error v1 i) as [y|] eqn:Hy; [|apply nth_error_None in Hy; lia].
    exists x, y. split; [apply (Q0 _ _ Hx)|]. split; [apply (Q1 _ _ Hy)|].
    assert (Hc : nth_error (combine v0 v1) i = Some (x, y)) by (clear -Hx Hy; revert i v1 Hx Hy; induction v0 as [|a v0 IH]; intros [|i] [|c v1] Hx Hy; try discriminate; cbn in *; [congruence|eauto]).
    assert (Hd : flp_decide_pair E (cfg_hist cfg) (x, y) = Ret b) by (clear -Hm Hc Hi; revert i Hc Hi; induction Hm as [|p q l1 l2 Hpq Hm IH]; intros [|i] Hc Hi; try discriminate; cbn in *; [congruence|eauto]).
    unfold flp_decide_pair in Hd. cbn [fst snd] in Hd. rewrite zip_add_combine in Hd. unfold unwrap in Hd. destruct (flp_decide _ _ _); congruence.
  - destruct H as [Hl H].
    assert (Hex : exists v0 v1, length v0 = S n /\ length v1 = S n /\ Forall2 (fun ab c => flp_decide_pair E (cfg_hist cfg) ab = Ret c) (combine v0 v1) keep /\
       (forall i x, nth_error v0 i = Some x -> run_flp_queries E (s_coll s0) i (i + 1) = Ret [x]) /\
       (forall i x, nth_error v1 i = Some x -> run_flp_queries E (s_coll s1) i (i + 1) = Ret [x])).
    { assert (Hgen : forall keep a, (forall i b, nth_error keep i = Some b -> flp_verdict E (cfg_hist cfg) (s_coll s0) (s_coll s1) (a + i) b) ->
        exists v0 v1, length v0 = length keep /\ length v1 = length keep /\ Forall2 (fun ab c => flp_decide_pair E (cfg_hist cfg) ab = Ret c) (combine v0 v1) keep /\
        (forall i x, nth_error v0 i = Some x -> run_flp_queries E (s_coll s0) (a + i) (a + i + 1) = Ret [x]) /\
        (forall i x, nth_error v1 i = Some x -> run_flp_queries E (s_coll s1) (a + i) (a + i + 1) = Ret [x])).
      { clear. induction keep as [|b keep IH]; intros a H; [exists [], []; repeat split; [constructor|intros [] ? [=]|intros [] ? [=]]|].
        destruct (IH (S a)) as (v0 & v1 & L0 & L1 & HF & Q0 & Q1).
        { intros i c Hi. replace (S a + i) with (a + S i) by lia. apply H. exact Hi. }
        destruct (H 0 b eq_refl) as (x & y & Hx & Hy & Hd). exists (x :: v0), (y :: v1). cbn [length combine]. split; [lia|]. split; [lia|]. split.
        - constructor; [|exact HF]. unfold flp_decide_pair. cbn [fst snd]. rewrite zip_add_combine, Hd. reflexivity.
        - split; intros [|i] z Hz; cbn in Hz.
          + rewrite Nat.add_0_r in *. congruence.
          + replace (a + S i) with (S a + i) by lia. apply Q0. exact Hz.
          + rewrite Nat.add_0_r in *. congruence.
          + replace (a + S i) with (S a + i) by lia. apply Q1. exact Hz. }
      destruct (Hgen keep 0 H) as (v0 & v1 & L0 & L1 & Hr). exists v0, v1. rewrite <- Hl. auto. }
    destruct Hex as (v0 & v1 & L0 & L1 & HF & Q0 & Q1). exists v0, v1, keep.
    split; [apply (rfq_singles E _ _ R0 (S n) 0 v0 eq_refl); split; [exact L0|split; [left; lia|exact Q0]]|].
    split; [apply (rfq_singles E _ _ R1 (S n) 0 v1 eq_refl); split; [exact L1|split; [left; lia|exact Q1]]|].
    split; [apply mapM_intro; exact HF|reflexivity].
Qed.

Lemma flp_batch_independent E cfg1 cfg2 s0 s1 n fuel1 fuel2 t0 t1 :
  0 < cfg_query_batch cfg1 -> 0 < cfg_query_batch cfg2 -> cfg_hist cfg1 = cfg_hist cfg2 -> n <= fuel1 -> n <= fuel2 ->
  s_poison s0 = false -> s_poison s1 = false -> root_of (s_coll s0) n -> root_of (s_coll s1) n ->
  drv_run_flp_queries fuel1 E cfg1 s0 s1 n = Ret (t0, t1) -> drv_run_flp_queries fuel2 E cfg2 s0 s1 n = Ret (t0, t1).
Proof.
  intros Hb1 Hb2 Hh Hf1 Hf2 H0 H1 R0 R1 H. unfold drv_run_flp_queries in *. bret H as [[a b] keep] Hl.
  rewrite (flp_loop_batch E cfg1 cfg2 s0 s1 n fuel1 fuel2 _ _ _ Hb1 Hb2 Hh Hf1 Hf2 H0 H1 (root_of_same _ _ _ R0 R1) Hl). exact H.
Qed.

(** *** C37 *)
Lemma mapM_ret_panic {A B} (f : A -> outcome B) l : (exists r, mapM f l = Ret r) \/ exists p, mapM f l = Panic p.
Proof. destruct (mapM f l); eauto. Qed.
Lemma shares_with s rs : held_shares (with_reports s rs) = held_shares s ++ rs.
Proof. unfold held_shares, with_reports. cbn. rewrite map_app, map_map. cbn. rewrite map_id. reflexivity. Qed.

Lemma upload_all fuel E cfg reports chs s0 s1 : 0 < cfg_add_batch cfg -> length chs <= fuel ->
  s_poison s0 = false -> s_poison s1 = false ->
  (forall t0 t1, upload fuel E cfg reports chs s0 s1 = Ret (t0, t1) ->
     exists ups, length ups = length chs /\
     (forall i ch, nth_error chs i = Some ch -> exists up, nth_error ups i = Some up /\ make_upload reports ch = Ret up) /\
     c_reports (s_coll t0) = c_reports (s_coll s0) ++ map (fun up => (true, fst up)) ups /\
     c_reports (s_coll t1) = c_reports (s_coll s1) ++ map (fun up => (true, snd up)) ups) /\
  ((forall ch, In ch chs -> exists up, make_upload reports ch = Ret up) ->
     exists t0 t1, upload fuel E cfg reports chs s0 s1 = Ret (t0, t1)).
Proof.
  intros Hb Hf H0 H1. split.
  - intros t0 t1 H. destruct (mapM_ret_panic (make_upload reports) chs) as [[ups Hu]|[p Hu]].
    + rewrite (upload_spec fuel E cfg reports chs ups s0 s1 Hb Hf H0 H1 Hu) in H. injection H as <- <-.
      exists ups. split; [apply mapM_length in Hu; lia|]. split; [|split; cbn; rewrite map_map; reflexivity].
      apply mapM_inv in Hu. intros i ch Hi. clear -Hu Hi. revert i Hi. induction Hu as [|a b l1 l2 Hab Hu IH]; intros [|i] Hi; try discriminate; cbn in *.
      * injection Hi as <-. eauto.
      * apply IH. exact Hi.
    + unfold upload in H. destruct (upload_sizes_spec _ Hb _ _ Hf) as (sizes & Hz & Hs). rewrite Hz in H. cbn [bind] in H.
      destruct (upload_batches_panic E reports sizes chs p s0 s1 Hs Hu) as [p' Hp']. congruence.
  - intros Hall. assert (Hu : exists ups, mapM (make_upload reports) chs = Ret ups).
    { clear -Hall. induction chs as [|ch chs IH]; [exists []; reflexivity|]. destruct (Hall ch (or_introl eq_refl)) as [u Hu].
      destruct IH as [us Hus]; [intros; apply Hall; right; assumption|]. exists (u :: us). cbn [mapM]. rewrite Hu. cbn. rewrite Hus. reflexivity. }
    destruct Hu as [ups Hu]. rewrite (upload_spec fuel E cfg reports chs ups s0 s1 Hb Hf H0 H1 Hu). eauto.
Qed.
Lemma upload_honest reports ch r : nth_error reports (ch_idx ch) = Some r -> ch_malicious ch = false -> make_upload reports ch = Ret (to_shares r).
Proof. intros Hi Hm. unfold make_upload. rewrite (index_some _ _ _ Hi). cbn [bind]. rewrite Hm. destruct (to_shares r). reflexivity. Qed.
Lemma upload_batch_independent E cfg1 cfg2 reports chs s0 s1 fuel1 fuel2 t0 t1 : 0 < cfg_add_batch cfg1 -> 0 < cfg_add_batch cfg2 ->
  length chs <= fuel1 -> length chs <= fuel2 -> s_poison s0 = false -> s_poison s1 = false ->
  upload fuel1 E cfg1 reports chs s0 s1 = Ret (t0, t1) -> upload fuel2 E cfg2 reports chs s0 s1 = Ret (t0, t1).
Proof.
  intros Hb1 Hb2 Hf1 Hf2 H0 H1 H. destruct (mapM_ret_panic (make_upload reports) chs) as [[ups Hu]|[p Hu]].
  - rewrite (upload_spec fuel1 E cfg1 reports chs ups) in H by assumption. rewrite (upload_spec fuel2 E cfg2 reports chs ups) by assumption. exact H.
  - unfold upload in H. destruct (upload_sizes_spec _ Hb1 _ _ Hf1) as (sizes & Hz & Hs). rewrite Hz in H. cbn [bind] in H.
    destruct (upload_batches_panic E reports sizes chs p s0 s1 Hs Hu) as [p' Hp']. congruence.
Qed.

(** *** C31 *)
Lemma printed_drops len rs r out : 0 < len -> last_bucket_zero len r -> printed len rs = Ret out -> ~ In r out.
Proof.
  intros Hl Hz H Hin. unfold printed in H.
  assert (Hg : forall rs acc out, foldM (fun acc r => let! x := index (res_value r) (len - 1) in Ret (if fpos x then acc ++ [r] else acc)) acc rs = Ret out ->
    ~ In r acc -> ~ In r out).
  { clear -Hz. induction rs as [|a rs IH]; intros acc out H Ha; cbn [foldM] in H; [injection H as <-; exact Ha|].
    bret H as acc' Hs. bret Hs as x Hx. injection Hs as <-. apply IH in H; [exact H|]. destruct (fpos x) eqn:Hf; [|exact Ha].
    intros Hc. apply in_app_iff in Hc. destruct Hc as [Hc|[<-|[]]]; [exact (Ha Hc)|].
    apply index_ret in Hx. unfold last_bucket_zero in Hz. rewrite Hz in Hx. injection Hx as <-. vm_compute in Hf. discriminate. }
  exact (Hg rs [] out H (fun h => h) Hin).
Qed.
Lemma printed_shape len rs : Forall (fun r => len - 1 < length (res_value r)) rs ->
  printed len rs = Ret (filter (fun r => negb (fval (nth (len - 1) (res_value r) (of_Z 0)) =? 0)%Z) rs).
Proof. exact (printed_spec len rs). Qed.

(** *** C32 *)
Lemma malicious_vidpf_is_honest reports ch nonce k0 k1 proofs jr alpha : ch_malicious ch = true -> ch_coin ch = true ->
  nth_error reports (ch_idx ch) = Some (PRMastic nonce (k0, k1) proofs jr alpha) -> length (root_seed k1) = 16 ->
  make_upload reports ch = Ret (to_shares (PRMastic nonce (k0, k1) proofs jr alpha)).
Proof.
  intros Hm Hc Hi Hk. unfold make_upload. rewrite (index_some _ _ _ Hi). cbn [bind to_shares fst snd]. rewrite Hm, Hc, tamper_vidpf by exact Hk. reflexivity.
Qed.
Lemma malicious_other reports ch r up : ch_malicious ch = true -> nth_error reports (ch_idx ch) = Some r ->
  make_upload reports ch = Ret up -> (ch_coin ch = false \/ exists n p i0 i1, r = PRPrio3 n p i0 i1) ->
  fst up = fst (to_shares r) /\ snd up <> snd (to_shares r).
Proof.
  intros Hm Hi H Hcase. unfold make_upload in H. rewrite (index_some _ _ _ Hi) in H. cbn [bind] in H. rewrite Hm in H.
  destruct r as [nonce keys proofs jr alpha|nonce pub i0 i1]; cbn [to_shares] in H |- *; bret H as r1 Hr1; injection H as <-; cbn [fst snd]; (split; [reflexivity|]).
  - destruct Hcase as [Hc|(? & ? & ? & ? & Hc)]; [|discriminate]. rewrite Hc in Hr1. apply tamper_flp in Hr1. destruct Hr1 as (pf & -> & _ & Hne). intros Hx. apply Hne. congruence.
  - apply tamper_prio3 in Hr1. destruct Hr1 as (inp & -> & _ & Hne). intros Hx. apply Hne. congruence.
Qed.

(** *** concrete cases *)
Definition cfg2 (ab qb : nat) (thr : Z) : config := {| cfg_bits := Some 3; cfg_hist := 2; cfg_add_batch := ab; cfg_query_batch := qb; cfg_thr := thr |}.
Definition honest_choices (l : list nat) : list choice := map (fun i => {| ch_idx := i; ch_malicious := false; ch_coin := false |}) l.
Definition ex_whh (cfg : config) (chs : list choice) : outcome (server * server * list result) :=
  main_whh 20 rx cfg ex_clients ex_vk chs (server_start 0 (Some 3) 2) (server_start 1 (Some 3) 2).
Definition res_eqb (a : list result) (b : list (list bool * list Z)) : bool :=
  list_eqb (fun x y => path_eqb (fst x) (fst y) && list_eqb Z.eqb (snd x) (snd y)) (map (fun r => (res_path r, map fval (res_value r))) a) b.
Definition ex_up (qs : list choice) : outcome (server * server) :=
  let! '(s0, s1) := reset_servers rx (cfg2 2 2 2) ex_vk (server_start 0 (Some 3) 2) (server_start 1 (Some 3) 2) in
  let! '(s0, s1) := upload 20 rx (cfg2 2 2 2) (ex_reports rx) qs s0 s1 in
  call2_done rx s0 s1 QTreeInit QTreeInit.
Definition bad_flp (i : nat) : choice := {| ch_idx := i; ch_malicious := true; ch_coin := false |}.
Definition bad_vidpf (i : nat) : choice := {| ch_idx := i; ch_malicious := true; ch_coin := true |}.
Definition root_size (s : server) : nat := match c_frontier (s_coll s) with [node] => length (tn_values node) | _ => 99 end.
(** an aggregator pair whose roots never agree *)
Definition quarrel (s : unit) (split : nat) (m : list nat) (l : bool) : outcome (unit * crawl_answer * crawl_answer) :=
  Ret (s, ([], [[0%N]], [0]), ([], [[1%N]], [0])).

Lemma ex_flp_batches :
  match ex_up [bad_vidpf 0; bad_flp 1; {| ch_idx := 2; ch_malicious := false; ch_coin := true |}] with
  | Ret (s0, s1) =>
      (root_size s0 =? 3) && (root_size s1 =? 3) && negb (s_poison s0) && negb (s_poison s1) &&
      match flp_loop 20 rx (cfg2 2 1 2) s0 s1 3 0 [] , flp_loop 20 rx (cfg2 2 2 2) s0 s1 3 0 [] with
      | Ret (_, _, k1), Ret (_, _, k2) => list_eqb Bool.eqb k1 [true; false; true] && list_eqb Bool.eqb k2 [true; false; true]
      | _, _ => false
      end
  | Panic _ => false
  end = true.
Proof. vm_cast_no_check (eq_refl true). Qed.
Lemma ex_printed :
  match ex_whh (cfg2 3 4 1) (honest_choices [4; 2; 2; 0; 4]) with
  | Ret (_, _, rs) =>
      res_eqb rs [([false; false; false], [2; 0; 2]); ([false; false; true], [0; 2; 2]); ([true; false; true], [0; 1; 1])]%Z &&
      match printed 2 rs with Ret l => res_eqb l [([false; false; true], [0; 2; 2]); ([true; false; true], [0; 1; 1])]%Z | Panic _ => false end
  | Panic _ => false
  end = true.
Proof. vm_cast_no_check (eq_refl true). Qed.
