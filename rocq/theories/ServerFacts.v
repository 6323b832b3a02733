(** Proofs about Server.v: reset, poisoning, independence of the two aggregators. *)
From Verif Require Import Base BaseFacts Field Util UtilFacts Env Prg Vidpf VidpfFacts SpecTree VidpfTreeFacts VidpfTreeFacts3 Merkle Collect Server
  SpecCollect SpecServer CollectFacts CollectInv.

Lemma handle_ids E s q : s_id (fst (handle E s q)) = s_id s /\ s_bits (fst (handle E s q)) = s_bits s.
Proof.
  destruct (handle E s q) as [s' a] eqn:H. apply handle_inv in H. cbn [fst].
  destruct H as [(-> & _)|[(_ & -> & _)|(_ & c & r & _ & -> & _)]]; split; reflexivity.
Qed.
Lemma handle_all_cons E s q qs : handle_all E s (q :: qs) =
  (fst (handle_all E (fst (handle E s q)) qs), snd (handle E s q) :: snd (handle_all E (fst (handle E s q)) qs)).
Proof. cbn [handle_all]. destruct (handle E s q) as [s1 a]. cbn [fst snd]. destruct (handle_all E s1 qs). reflexivity. Qed.
Lemma handle_all_ids E qs : forall s, s_id (fst (handle_all E s qs)) = s_id s /\ s_bits (fst (handle_all E s qs)) = s_bits s.
Proof.
  induction qs as [|q qs IH]; intros s; [split; reflexivity|]. rewrite handle_all_cons. cbn [fst].
  destruct (IH (fst (handle E s q))) as [H1 H2]. destruct (handle_ids E s q) as [H3 H4]. split; congruence.
Qed.
Lemma handle_all_app E qs1 : forall s qs2, handle_all E s (qs1 ++ qs2) =
  (fst (handle_all E (fst (handle_all E s qs1)) qs2), snd (handle_all E s qs1) ++ snd (handle_all E (fst (handle_all E s qs1)) qs2)).
Proof.
  induction qs1 as [|q qs1 IH]; intros s qs2; [cbn; destruct (handle_all E s qs2); reflexivity|].
  cbn [app]. rewrite !handle_all_cons, IH. reflexivity.
Qed.

(** *** C38 *)
Lemma reset_fresh E id bits h0 qs0 vk h qs s : s = fst (handle_all E (server_start id bits h0) qs0) -> s_poison s = false -> hist_ok h = true ->
  handle_all E s (QReset vk h :: qs) =
  (fst (handle_all E (fresh_server id bits h vk) qs), Ret ADone :: snd (handle_all E (fresh_server id bits h vk) qs)).
Proof.
  intros Hs Hp Hh. rewrite handle_all_cons.
  assert (Hr : handle E s (QReset vk h) = (fresh_server id bits h vk, Ret ADone)).
  { unfold handle. cbn [prelock]. rewrite Hp. cbn [body]. rewrite Hh. unfold set_coll, fresh_server, coll_new. rewrite Hp.
    destruct (handle_all_ids E qs0 (server_start id bits h0)) as [H1 H2]. rewrite <- Hs in H1, H2. cbn in H1, H2. rewrite H1, H2. reflexivity. }
  rewrite Hr. reflexivity.
Qed.
Lemma start_is_fresh id bits h : server_start id bits h = fresh_server id bits h (repeat 0%N 16).
Proof. reflexivity. Qed.

(** *** C39 *)
Lemma poisoned_stuck E s : s_poison s = true -> forall qs,
  fst (handle_all E s qs) = s /\ Forall panicked (snd (handle_all E s qs)).
Proof.
  intros Hp. induction qs as [|q qs IH]; [split; [reflexivity|constructor]|]. rewrite handle_all_cons.
  assert (Hh : exists p, handle E s q = (s, Panic p)) by (unfold handle; destruct (prelock E q); [rewrite Hp|]; eauto).
  destruct Hh as [p Hh]. rewrite Hh. cbn [fst snd]. destruct IH as [IH1 IH2]. split; [exact IH1|]. constructor; [exists p; reflexivity|exact IH2].
Qed.
Lemma panic_poisons E s q p : s_poison s = false -> prelock E q = Ret tt -> body E s q = Panic p ->
  snd (handle E s q) = Panic p /\ forall qs,
  fst (handle_all E (fst (handle E s q)) qs) = fst (handle E s q) /\ Forall panicked (snd (handle_all E (fst (handle E s q)) qs)).
Proof.
  intros Hp Hl Hb. assert (Hh : handle E s q = (set_poison s, Panic p)) by (unfold handle; rewrite Hl, Hp, Hb; reflexivity).
  rewrite Hh. cbn [fst snd]. split; [reflexivity|]. intros qs. apply poisoned_stuck. reflexivity.
Qed.
Lemma prelock_harmless E s q p : prelock E q = Panic p -> handle E s q = (s, Panic p).
Proof. intros H. unfold handle. rewrite H. reflexivity. Qed.
Lemma ok_not_poisoned E s q r : snd (handle E s q) = Ret r -> s_poison s = false /\ s_poison (fst (handle E s q)) = false.
Proof.
  destruct (handle E s q) as [s' a] eqn:H. apply handle_inv in H. cbn [fst snd]. intros ->.
  destruct H as [(_ & p & H)|[(_ & _ & p & H & _)|(Hp & c & r' & _ & -> & _)]]; try discriminate. split; exact Hp.
Qed.

(** *** C48 *)
Fixpoint lefts {A B} (l : list (A + B)) : list A := match l with [] => [] | inl a :: l' => a :: lefts l' | inr _ :: l' => lefts l' end.
Fixpoint rights {A B} (l : list (A + B)) : list B := match l with [] => [] | inr a :: l' => a :: rights l' | inl _ :: l' => rights l' end.
Lemma stream_independent E qs0 qs1 l : interleaves qs0 qs1 l -> forall s0 s1, exists rs,
  run_stream E s0 s1 l = (fst (handle_all E s0 qs0), fst (handle_all E s1 qs1), rs) /\
  interleaves (snd (handle_all E s0 qs0)) (snd (handle_all E s1 qs1)) rs.
Proof.
  induction 1 as [|q l0 l1 l H IH|q l0 l1 l H IH]; intros s0 s1.
  - exists []. split; [reflexivity|constructor].
  - rewrite handle_all_cons. cbn [run_stream fst snd]. destruct (handle E s0 q) as [s0' a]. cbn [fst snd].
    destruct (IH s0' s1) as (rs & -> & Hi). exists (inl a :: rs). split; [reflexivity|constructor; exact Hi].
  - rewrite handle_all_cons. cbn [run_stream fst snd]. destruct (handle E s1 q) as [s1' a]. cbn [fst snd].
    destruct (IH s0 s1') as (rs & -> & Hi). exists (inr a :: rs). split; [reflexivity|constructor; exact Hi].
Qed.
Lemma interleaves_all {A B} (qs0 : list A) (qs1 : list B) : interleaves qs0 qs1 (map inl qs0 ++ map inr qs1).
Proof.
  induction qs0 as [|a qs0 IH]; cbn; [|constructor; exact IH].
  induction qs1 as [|b qs1 IH]; cbn; constructor. exact IH.
Qed.

(** *** C40 *)
Lemma never_readmitted E id bits h0 qs0 qs s : s = fst (handle_all E (server_start id bits h0) qs0) -> Forall not_reset qs ->
  let s' := fst (handle_all E s qs) in
  (forall i, rejected s i -> rejected s' i) /\
  (forall i h r, nth_error (c_reports (s_coll s)) i = Some (h, r) -> exists h', nth_error (c_reports (s_coll s')) i = Some (h', r)).
Proof.
  intros Hs Hq. cbn zeta. assert (Hinv : cinv E (s_coll s)).
  { rewrite Hs. apply handle_all_cinv. apply cinv_new. }
  destruct (handle_all_reps E qs s Hq Hinv) as [Hle _]. split.
  - intros i [r Hr]. destruct (Hle _ _ _ Hr) as (h' & Hr' & Hi). exists r. destruct h'; [specialize (Hi eq_refl); discriminate|exact Hr'].
  - intros i h r Hr. destruct (Hle _ _ _ Hr) as (h' & Hr' & _). eauto.
Qed.

(** *** C15 *)
Lemma last_some {A} (l : list A) d x : last (map Some l) None = Some x -> last l d = x.
Proof.
  induction l as [|a l IH]; cbn; [discriminate|]. destruct l as [|b l]; cbn in *; [congruence|]. exact IH.
Qed.
Lemma last_none {A} (l : list A) : last (map Some l) None = None -> l = [].
Proof. induction l as [|a l IH]; cbn; [reflexivity|]. destruct l as [|b l]; cbn in *; [discriminate|]. intros H. specialize (IH H). discriminate. Qed.
Lemma node_ok_holds E len reports n node : node_ok E len reports n node -> holds_evaluations E len reports n node.
Proof.
  intros (H1 & H2 & H3). split; [exact H1|]. split; [exact H2|]. intros i Hi.
  destruct (nth_error (tn_states node) i) as [st|] eqn:Hst; [|apply nth_error_None in Hst; lia].
  destruct (nth_error (tn_values node) i) as [v|] eqn:Hv; [|apply nth_error_None in Hv; lia].
  destruct (H3 _ _ _ Hst Hv) as (h & r & k & w & Hr & Hk & He & Hw). destruct r as [nonce k' proof jr|]; [|discriminate].
  injection Hk as ->. destruct (evals_eval_loop _ _ _ _ _ _ He) as [out Ho].
  destruct (eval_loop_evals_init _ _ _ _ _ _ _ Ho) as [He' Hl]. destruct (evals_fun _ _ _ _ _ _ _ _ He He') as [_ Hlast].
  exists h, nonce, k, proof, jr, st, out. split; [exact Hr|]. split; [reflexivity|]. split; [exact Ho|]. f_equal. rewrite Hw.
  destruct w as [x|].
  - symmetry. apply last_some. auto.
  - symmetry in Hlast. apply last_none in Hlast. subst out. reflexivity.
Qed.
Lemma path_lt_neq p q : path_lt p q -> p <> q.
Proof. intros H ->. exact (path_lt_irrefl _ H). Qed.
Lemma sorted_nodup l : sorted_paths l -> NoDup l.
Proof.
  induction l as [|p l IH]; intros H; [constructor|]. destruct H as [H1 H2]. constructor; [|auto].
  intros Hin. exact (path_lt_irrefl _ (H1 _ Hin)).
Qed.
Lemma frontier_wf E id bits h0 qs c : c = s_coll (fst (handle_all E (server_start id bits h0) qs)) ->
  (exists n, n <= length (c_reports c) /\ forall node, In node (c_frontier c) -> holds_evaluations E (c_len c) (c_reports c) n node) /\
  (forall n1 n2, In n1 (c_frontier c) -> In n2 (c_frontier c) -> length (tn_path n1) = length (tn_path n2)) /\
  sorted_paths (map tn_path (c_frontier c)) /\ NoDup (map tn_path (c_frontier c)).
Proof.
  intros ->. assert (Hinv : cinv E (s_coll (fst (handle_all E (server_start id bits h0) qs)))) by (apply handle_all_cinv, cinv_new).
  destruct Hinv as [(n & Hn & Hok & (L & HL) & Hs) _]. split; [|split; [|split; [exact Hs|apply sorted_nodup; exact Hs]]].
  - exists n. split; [exact Hn|]. intros node Hin. apply node_ok_holds, Hok, Hin.
  - intros n1 n2 H1 H2. rewrite (HL _ H1), (HL _ H2). reflexivity.
Qed.

Lemma grow_all_reports E id bits h0 qs s q a s' : s = fst (handle_all E (server_start id bits h0) qs) -> grows_tree q ->
  handle E s q = (s', Ret a) ->
  forall node, In node (c_frontier (s_coll s')) -> holds_evaluations E (c_len (s_coll s')) (c_reports (s_coll s')) (length (c_reports (s_coll s'))) node.
Proof.
  intros Hs Hq H node Hnode. assert (Hinv : cinv E (s_coll s)) by (rewrite Hs; apply handle_all_cinv, cinv_new).
  apply handle_inv in H. destruct H as [(_ & p & H)|[(_ & _ & p & H & _)|(_ & c & r & Hb & -> & _)]]; try discriminate.
  apply node_ok_holds. cbn [set_coll s_coll] in *.
  destruct q; cbn [grows_tree body] in *; try contradiction.
  - bret Hb as c1 H1. injection Hb as <- <-. apply tree_init_inv with (E := E) in H1. destruct H1 as (states & -> & Hn).
    destruct Hnode as [<-|[]]. exact Hn.
  - bret Hb as [c1 [[v r'] i]] H1. injection Hb as <- <-. apply tree_crawl_inv in H1.
    destruct H1 as (c0 & n0 & next & checks & hashes & Hp & _ & Hnext & _ & _ & _ & -> & _).
    apply crawl_prepare_ok in Hp. destruct Hp as (Hlen & _ & _ & Hle & Hlr & Hprev & Hfr & _).
    assert (Hf : exists n, n <= length (c_reports c0) /\ front_ok E (c_len c0) (c_reports c0) n (c_frontier c0)).
    { rewrite Hfr, Hlen. destruct Hinv as [(n & Hn & H1) (n' & Hn' & H2)]. pose proof (reps_le_length _ _ Hle).
      destruct malicious; [exists n|exists n']; (split; [lia|]); eapply front_ok_mono; eauto. }
    destruct Hf as (n & Hn & Hf). destruct (crawl_children_ok _ _ _ _ _ Hn Hf Hnext) as [Hok _]. apply Hok. exact Hnode.
  - bret Hb as [c1 v] H1. injection Hb as <- <-. apply tree_crawl_last_inv in H1. destruct H1 as (next & proofs & Hnext & _ & -> & _).
    destruct Hinv as [(n & Hn & Hf) _]. destruct (crawl_children_ok _ _ _ _ _ Hn Hf Hnext) as [Hok _]. apply Hok. exact Hnode.
Qed.

(** *** C17 *)
Lemma next_sums E c b next n : n <= length (c_reports c) -> front_ok E (c_len c) (c_reports c) n (c_frontier c) -> crawl_children E c b = Ret next ->
  forall node, In node next -> is_sum_of_accepted E (c_len c) (c_reports c) (tn_path node) (tn_value node).
Proof.
  intros Hn Hf H node Hin. destruct (crawl_children_ok _ _ _ _ _ Hn Hf H) as ((Hok & _ & _) & Hpaths & Hval).
  destruct (Hok _ Hin) as (H1 & H2 & H3). rewrite Forall_forall in Hval. specialize (Hval _ Hin).
  assert (Hne : tn_path node <> []).
  { assert (Hp : In (tn_path node) (concat (map (fun p => [p ++ [false]; p ++ [true]]) (map tn_path (c_frontier c))))) by (rewrite <- Hpaths; apply in_map; exact Hin).
    apply in_concat in Hp. destruct Hp as (x & Hx & Hp). apply in_map_iff in Hx. destruct Hx as (p & <- & _).
    destruct Hp as [<-|[<-|[]]]; destruct p; discriminate. }
  exists (tn_values node). split; [exact H2|]. split; [|split].
  - intros i w Hw. destruct (nth_error (tn_states node) i) as [st|] eqn:Hst.
    2:{ apply nth_error_None in Hst. assert (i < length (tn_values node)) by (apply nth_error_Some; congruence). lia. }
    destruct (H3 _ _ _ Hst Hw) as (h & r & k & w' & Hr & Hk & He & Hv). destruct r as [nonce k' proof jr|]; [|discriminate]. injection Hk as ->.
    exists h, nonce, k, proof, jr, (es_proof st). split; [exact Hr|].
    destruct w' as [x|]; [subst w; eapply evals_share_at; exact He|].
    exfalso. apply Hne. apply evals_inv in He. destruct He as [(He & _)|(? & ? & ? & ? & ? & _ & _ & _ & He)]; [exact He|discriminate].
  - rewrite Hval. apply sum_honest_length.
  - intros j Hj. rewrite Hval. apply sum_honest_nth; [exact H2|lia].
Qed.

Lemma crawl_sums E id bits h0 qs s split mal last s' v r i : s = fst (handle_all E (server_start id bits h0) qs) ->
  handle E s (QTreeCrawl split mal last) = (s', Ret (ACrawl v r i)) ->
  v = map tn_value (c_frontier (s_coll s')) /\ forall node, In node (c_frontier (s_coll s')) ->
  is_sum_of_accepted E (c_len (s_coll s')) (c_reports (s_coll s')) (tn_path node) (tn_value node).
Proof.
  intros Hs H. assert (Hinv : cinv E (s_coll s)) by (rewrite Hs; apply handle_all_cinv, cinv_new).
  apply handle_inv in H. destruct H as [(_ & p & H)|[(_ & _ & p & H & _)|(_ & c & a & Hb & -> & Ha)]]; try discriminate.
  injection Ha as <-. cbn [body set_coll s_coll] in *.
  bret Hb as [c1 [[v1 r1] i1]] H1. injection Hb as <- <- <- <-. apply tree_crawl_inv in H1.
  destruct H1 as (c0 & n0 & next & checks & hashes & Hp & _ & Hnext & _ & _ & _ & -> & ->).
  apply crawl_prepare_ok in Hp. destruct Hp as (Hlen & _ & _ & Hle & Hlr & Hprev & Hfr & _).
  assert (Hf : exists n, n <= length (c_reports c0) /\ front_ok E (c_len c0) (c_reports c0) n (c_frontier c0)).
  { rewrite Hfr, Hlen. destruct Hinv as [(n & Hn & H1) (n' & Hn' & H2)]. pose proof (reps_le_length _ _ Hle).
    destruct mal; [exists n|exists n']; (split; [lia|]); eapply front_ok_mono; eauto. }
  destruct Hf as (n & Hn & Hf). split; [reflexivity|]. exact (next_sums _ _ _ _ _ Hn Hf Hnext).
Qed.
Lemma crawl_last_sums E id bits h0 qs s s' v : s = fst (handle_all E (server_start id bits h0) qs) ->
  handle E s QTreeCrawlLast = (s', Ret (AFields v)) ->
  v = map tn_value (c_frontier (s_coll s')) /\ forall node, In node (c_frontier (s_coll s')) ->
  is_sum_of_accepted E (c_len (s_coll s')) (c_reports (s_coll s')) (tn_path node) (tn_value node).
Proof.
  intros Hs H. assert (Hinv : cinv E (s_coll s)) by (rewrite Hs; apply handle_all_cinv, cinv_new).
  apply handle_inv in H. destruct H as [(_ & p & H)|[(_ & _ & p & H & _)|(_ & c & a & Hb & -> & Ha)]]; try discriminate.
  injection Ha as <-. cbn [body set_coll s_coll] in *.
  bret Hb as [c1 v1] H1. injection Hb as <- <-. apply tree_crawl_last_inv in H1. destruct H1 as (next & proofs & Hnext & _ & -> & ->).
  destruct Hinv as [(n & Hn & Hf) _]. split; [reflexivity|]. exact (next_sums _ _ _ _ _ Hn Hf Hnext).
Qed.
