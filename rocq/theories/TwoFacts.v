(** Proofs about two drivers. *)
From Verif Require Import Base Field Util Env Prg Vidpf Merkle Collect Server BaseFacts SpecServer SpecDriver SpecTwo PropCollect.
From Coq Require Import Lia.

Lemma fold_add : forall rs c, map snd (c_reports (fold_left add_report_share rs c)) = map snd (c_reports c) ++ rs.
Proof.
  induction rs as [|r rs IH]; intros c; cbn [fold_left]; [rewrite app_nil_r; reflexivity|].
  rewrite IH. unfold add_report_share, set_reports. cbn [c_reports]. rewrite map_app, <- app_assoc. reflexivity.
Qed.
Lemma upload_one : forall E first s batch, s_poison s = false ->
  s_poison (fst (handle E s (upload_to first batch))) = false /\ snd (handle E s (upload_to first batch)) = Ret ADone /\
  held_shares (fst (handle E s (upload_to first batch))) = held_shares s ++ map (if first then fst else snd) batch.
Proof.
  intros E first s batch H. unfold handle, upload_to. cbn [prelock]. rewrite H. cbn [body fst snd set_coll s_poison].
  split; [exact H|]. split; [reflexivity|]. unfold held_shares. cbn [s_coll]. apply fold_add.
Qed.
Lemma upload_many : forall E first batches s, s_poison s = false ->
  let r := handle_all E s (map (upload_to first) batches) in
  s_poison (fst r) = false /\ Forall (fun a => a = Ret ADone) (snd r) /\
  held_shares (fst r) = held_shares s ++ map (if first then fst else snd) (concat batches).
Proof.
  intros E first. induction batches as [|b bs IH]; intros s H; cbn [map handle_all concat].
  - cbn [fst snd map]. rewrite app_nil_r. split; [exact H|]. split; [constructor|reflexivity].
  - destruct (upload_one E first s b H) as (P & A & Q). destruct (handle E s (upload_to first b)) as [s1 a]. cbn [fst snd] in *.
    specialize (IH s1 P). cbv zeta in IH. destruct (handle_all E s1 (map (upload_to first) bs)) as [s2 l]. cbn [fst snd] in *.
    destruct IH as (I1 & I2 & I3). split; [exact I1|]. split; [constructor; assumption|].
    rewrite I3, Q, map_app, <- app_assoc. reflexivity.
Qed.
Lemma weave_map {A B} (f : A -> B) : forall p a b, weave p (map f a) (map f b) = map f (weave p a b).
Proof. induction p as [|[|] p IH]; intros a b; [reflexivity| |]; [destruct a|destruct b]; cbn; try rewrite <- IH; reflexivity. Qed.
Lemma weave_at {A} : forall p x q (a b : list A), merges (p ++ x :: q) a b ->
  nth_error (weave (p ++ x :: q) a b) (length p) = nth_error (if x then a else b) (count x p) /\ count x p < length (if x then a else b).
Proof.
  induction p as [|[|] p IH]; intros x q a b [H1 H2]; unfold count in *; cbn [app filter Bool.eqb length] in *.
  - destruct x; cbn [weave Bool.eqb length filter] in *; [destruct a|destruct b]; cbn in *; try lia; split; try reflexivity; lia.
  - cbn in H1, H2. destruct a as [|y a]; [discriminate|]. cbn [weave nth_error].
    specialize (IH x q a b). destruct IH as [I1 I2]; [split; cbn in *; unfold count; lia|]. destruct x; cbn [filter Bool.eqb length nth_error] in *; (split; [exact I1|lia]).
  - cbn in H1, H2. destruct b as [|y b]; [discriminate|]. cbn [weave nth_error].
    specialize (IH x q a b). destruct IH as [I1 I2]; [split; cbn in *; unfold count; lia|]. destruct x; cbn [filter Bool.eqb length nth_error] in *; (split; [exact I1|lia]).
Qed.

Lemma C59_same_order_lemma : forall E s0 s1 p (a b : list (list (report_share * report_share))),
  s_poison s0 = false -> s_poison s1 = false ->
  let t0 := fst (handle_all E s0 (weave p (map (upload_to true) a) (map (upload_to true) b))) in
  let t1 := fst (handle_all E s1 (weave p (map (upload_to false) a) (map (upload_to false) b))) in
  held_shares t0 = held_shares s0 ++ map fst (concat (weave p a b)) /\ held_shares t1 = held_shares s1 ++ map snd (concat (weave p a b)).
Proof.
  intros E s0 s1 p a b H0 H1 t0 t1. subst t0 t1. rewrite !weave_map.
  split; [apply (upload_many E true _ s0 H0)|apply (upload_many E false _ s1 H1)].
Qed.
Lemma concat_singles {A} : forall l : list A, concat (map (fun x => [x]) l) = l.
Proof. induction l as [|x l IH]; [reflexivity|]. cbn. rewrite IH. reflexivity. Qed.
Lemma C59_order_lemma : forall E s0 s1 p q0 q1 (a b : list (report_share * report_share)),
  s_poison s0 = false -> s_poison s1 = false -> merges (p ++ true :: q0) a b -> merges (p ++ false :: q1) a b ->
  let one := map (fun r => [r]) in
  let t0 := fst (handle_all E s0 (weave (p ++ true :: q0) (map (upload_to true) (one a)) (map (upload_to true) (one b)))) in
  let t1 := fst (handle_all E s1 (weave (p ++ false :: q1) (map (upload_to false) (one a)) (map (upload_to false) (one b)))) in
  exists x y, nth_error a (count true p) = Some x /\ nth_error b (count false p) = Some y /\
    nth_error (held_shares t0) (length (held_shares s0) + length p) = Some (fst x) /\
    nth_error (held_shares t1) (length (held_shares s1) + length p) = Some (snd y).
Proof.
  intros E s0 s1 p q0 q1 a b H0 H1 M0 M1 one t0 t1.
  destruct (weave_at p true q0 a b M0) as [A1 A2]. destruct (weave_at p false q1 a b M1) as [B1 B2].
  destruct (nth_error a (count true p)) as [x|] eqn:X; [|apply nth_error_None in X; lia].
  destruct (nth_error b (count false p)) as [y|] eqn:Y; [|apply nth_error_None in Y; lia].
  exists x, y. split; [reflexivity|]. split; [reflexivity|].
  subst t0 t1 one. rewrite !weave_map. split.
  - rewrite (proj2 (proj2 (upload_many E true _ s0 H0))). rewrite concat_singles. rewrite nth_error_app2 by lia.
    replace (length (held_shares s0) + length p - length (held_shares s0)) with (length p) by lia. rewrite nth_error_map, A1. reflexivity.
  - rewrite (proj2 (proj2 (upload_many E false _ s1 H1))). rewrite concat_singles. rewrite nth_error_app2 by lia.
    replace (length (held_shares s1) + length p - length (held_shares s1)) with (length p) by lia. rewrite nth_error_map, B1. reflexivity.
Qed.

(** *** a reset or an upload in between *)
Lemma fatal : forall E s q, s_poison s = false -> prelock E q = Ret tt -> panicked (body E s q) ->
  let s' := fst (handle E s q) in
  panicked (snd (handle E s q)) /\ forall qs, fst (handle_all E s' qs) = s' /\ Forall panicked (snd (handle_all E s' qs)).
Proof.
  intros E s q H1 H2 [p Hp] s'. subst s'. destruct (C39_poison E s q p H1 H2 Hp) as [A B]. split; [exists p; exact A|exact B].
Qed.
Lemma C59_reset_lemma : forall E s vk h start stop, s_poison s = false -> hist_ok h = true ->
  let s1 := fst (handle E s (QReset vk h)) in
  let s2 := fst (handle E s1 (QRunFlpQueries start stop)) in
  panicked (snd (handle E s1 (QRunFlpQueries start stop))) /\ forall qs, fst (handle_all E s2 qs) = s2 /\ Forall panicked (snd (handle_all E s2 qs)).
Proof.
  intros E s vk h start stop H1 H2 s1.
  assert (A : s_poison s1 = false /\ c_frontier (s_coll s1) = []).
  { subst s1. unfold handle. cbn [prelock]. rewrite H1. cbn [body]. rewrite H2. cbn. split; [exact H1|reflexivity]. }
  destruct A as [A B]. apply fatal; [exact A|reflexivity|]. cbn [body].
  destruct (debug_assert _ _); [|eexists; reflexivity]. cbn [bind]. unfold run_flp_queries. rewrite B. eexists; reflexivity.
Qed.
Lemma late_node : forall E c n d, length (tn_states n) < length (c_reports c) -> panicked (make_tree_node E c n d).
Proof.
  intros E c n d H. destruct (make_tree_node E c n d) as [r|p] eqn:M; [exfalso|exists p; reflexivity].
  unfold make_tree_node in M. bret M as res Hres. apply mapMi_inv in Hres. destruct Hres as [_ Hres].
  destruct (nth_error (c_reports c) (length (tn_states n))) as [hr|] eqn:X; [|apply nth_error_None in X; lia].
  destruct (Hres _ _ X) as (b & _ & Hb). cbn [Nat.add] in Hb. bret Hb as k Hk. unfold index in Hb.
  replace (nth_error (tn_states n) (length (tn_states n))) with (@None eval_state) in Hb; [discriminate|].
  symmetry. apply nth_error_None. lia.
Qed.
Lemma C59_late_lemma : forall E s rs start stop, s_poison s = false -> snd (handle E s QTreeInit) = Ret ADone -> rs <> [] ->
  let s1 := fst (handle_all E s [QTreeInit; QAddReportShares rs]) in
  let s2 := fst (handle E s1 (QRunFlpQueries start stop)) in
  panicked (snd (handle E s1 (QRunFlpQueries start stop))) /\ forall qs, fst (handle_all E s2 qs) = s2 /\ Forall panicked (snd (handle_all E s2 qs)).
Proof.
  intros E s rs start stop H1 H2 Hrs s1.
  assert (A : s_poison s1 = false /\ exists n, c_frontier (s_coll s1) = [n] /\ length (tn_states n) < length (c_reports (s_coll s1))).
  { subst s1. cbn [handle_all]. unfold handle in H2 |- *. cbn [prelock] in *. rewrite H1 in *. cbn [body] in *. unfold tree_init in *.
    destruct (mapM _ (c_reports (s_coll s))) as [st|] eqn:M; [|discriminate]. cbn [bind fst snd set_coll s_poison prelock body s_coll] in *. rewrite H1. cbn [fst set_coll s_coll s_poison].
    split; [exact H1|]. apply mapM_length in M.
    assert (G : forall l c, c_frontier (fold_left add_report_share l c) = c_frontier c /\ length (c_reports (fold_left add_report_share l c)) = length (c_reports c) + length l).
    { induction l as [|r l IH]; intros c; cbn [fold_left length]; [split; [reflexivity|lia]|]. destruct (IH (add_report_share c r)) as [I1 I2]. rewrite I1, I2.
      split; [reflexivity|]. unfold add_report_share, set_reports. cbn [c_reports]. rewrite app_length. cbn. lia. }
    destruct (G rs (set_frontier (s_coll s) [{| tn_path := []; tn_value := [of_N 0]; tn_states := st; tn_values := map (fun _ => [of_N 0]) (c_reports (s_coll s)) |}])) as [G1 G2].
    eexists. split; [rewrite G1; reflexivity|]. rewrite G2. cbn [tn_states set_frontier c_reports]. rewrite M. destruct rs; [congruence|]. cbn. lia. }
  destruct A as [A (n & B & C)]. apply fatal; [exact A|reflexivity|]. cbn [body].
  destruct (debug_assert _ _); [|eexists; reflexivity]. cbn [bind].
  assert (P : panicked (run_flp_queries E (s_coll s1) start stop)).
  { unfold run_flp_queries. rewrite B. cbn [index nth_error bind].
    destruct (assert_ _); [|eexists; reflexivity]. cbn [bind]. destruct (debug_assert _ _); [|eexists; reflexivity]. cbn [bind].
    destruct (late_node E (s_coll s1) n false C) as [p ->]. eexists; reflexivity. }
  destruct P as [k ->]. eexists; reflexivity.
Qed.
