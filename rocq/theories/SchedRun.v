(** Proofs for C72: the tasks of the handlers and of the report generation compute what the sequential model
    computes, and only ever use 16-byte seeds. *)
From Verif Require Import Base BaseFacts Field Util UtilFacts Env Prg Vidpf Merkle Collect Server Driver SpecPrg PrgSpecFacts PrgSpecFacts2 VidpfFacts DriverFacts Sched SpecSched SchedFacts.
From Coq Require Import Lia Permutation.

Lemma bind_ext {A B} (m m' : outcome A) (k k' : A -> outcome B) : m = m' -> (forall a, k a = k' a) -> bind m k = bind m' k'.
Proof. intros <- H. destruct m; [apply H|reflexivity]. Qed.
Lemma mapMi_ext {A B} (f g : nat -> A -> outcome B) l : (forall i a, f i a = g i a) -> forall i, mapMi f i l = mapMi g i l.
Proof. intros H. induction l as [|a l IH]; intros i; cbn [mapMi]; [reflexivity|]. rewrite H, IH. reflexivity. Qed.
Lemma mapMi_const {A B} (f : A -> outcome B) l : forall i, mapMi (fun _ => f) i l = mapM f l.
Proof. induction l as [|a l IH]; intros i; cbn [mapMi mapM]; [reflexivity|]. rewrite IH. reflexivity. Qed.

Ltac al := repeat (first [reflexivity | rewrite alone_bind | apply bind_ext; [|intros ?] | progress cbn [alone pure bind] | match goal with |- context [match ?x with _ => _ end] => destruct x end]).

Section Env.
Context (E : env) (Hok : env_ok E).

Lemma alone_map A B (f : A -> task B) g l : (forall a, alone E (f a) = g a) -> alone E (par_map f l) = mapM g l.
Proof. intros H. unfold par_map. rewrite alone_par, (mapMi_ext _ (fun _ => g)) by (intros; apply H). apply mapMi_const. Qed.
Lemma alone_cor bit beta bits seeds : alone E (gen_cor_word_t E bit beta bits seeds) = gen_cor_word E bit beta bits seeds.
Proof.
  unfold gen_cor_word_t, gen_cor_word, expand. cbn [alone]. apply bind_ext; [reflexivity|intros d0]. apply bind_ext; [reflexivity|intros d1]. cbv zeta.
  destruct (next_seed_bit d0 _ _ _ _) as [s0 b0]. destruct (next_seed_bit d1 _ _ _ _) as [s1 b1]. cbn [alone]. apply bind_ext; [reflexivity|intros [c0 w0]]. cbn [alone]. apply bind_ext; [reflexivity|intros [c1 w1]]. reflexivity.
Qed.
Lemma alone_loop beta : forall alpha bs bits seeds, alone E (gen_loop_t E alpha beta bs bits seeds) = gen_loop E alpha beta bs bits seeds.
Proof.
  induction alpha as [|b alpha IH]; intros bs bits seeds; cbn [gen_loop_t gen_loop alone]; [reflexivity|]. cbv zeta. rewrite alone_bind, alone_cor. apply bind_ext; [reflexivity|]. intros [[cw bits'] seeds'].
  rewrite alone_bind, IH. apply bind_ext; [reflexivity|]. intros [cws css]. reflexivity.
Qed.
Lemma alone_gen s0 s1 a b : alone E (gen_t E s0 s1 a b) = gen E s0 s1 a b.
Proof. unfold gen_t, gen. rewrite alone_bind, alone_loop. apply bind_ext; [reflexivity|]. intros [cws css]. reflexivity. Qed.
Lemma alone_report len cl : alone E (gen_report_t E len cl) = gen_report E len cl.
Proof.
  unfold gen_report_t, gen_report. rewrite alone_bind. apply bind_ext; [reflexivity|intros beta]. rewrite alone_bind, alone_gen. apply bind_ext; [reflexivity|intros [k0 k1]]. cbv zeta.
  rewrite alone_bind. apply bind_ext; [reflexivity|intros proof]. reflexivity.
Qed.
Lemma alone_reports len cls : alone E (gen_reports_t E len cls) = mapM (gen_report E len) cls.
Proof. apply alone_map. intros cl. apply alone_report. Qed.
Lemma alone_bit k st d bs n : alone E (eval_bit_t E k st d bs n) = eval_bit E k st d bs n.
Proof.
  unfold eval_bit_t, eval_bit. cbn [alone]. apply bind_ext; [reflexivity|intros tau]. cbv zeta. rewrite alone_bind. apply bind_ext; [reflexivity|intros [seed nb]]. cbn [alone].
  apply bind_ext; [reflexivity|intros [ns w]]. reflexivity.
Qed.
Lemma alone_next k bs st b n : alone E (node_next_t E k bs st b n) = node_next E k bs st b n.
Proof. unfold node_next_t, node_next. cbv zeta. rewrite alone_bind, alone_bit. apply bind_ext; [reflexivity|intros [st' w]]. reflexivity. Qed.
Lemma alone_traverse k n : forall path node tr, alone E (traverse_t E k n path node tr) = traverse E k n path node tr.
Proof.
  induction path as [|b path IH]; intros [bs w pc st l r] tr; cbn [traverse_t traverse alone]; [reflexivity|]. cbv zeta. rewrite alone_bind. apply bind_ext.
  { destruct l; [reflexivity|]. rewrite alone_bind, alone_next. reflexivity. }
  intros [ln p]. rewrite alone_bind. apply bind_ext.
  { destruct r; [reflexivity|]. rewrite alone_bind, alone_next. reflexivity. }
  intros [rn p']. destruct (match p' with Some _ => _ | None => _ end) as [pc' tr']. destruct (negb b); rewrite alone_bind, IH; (apply bind_ext; [reflexivity|]); intros [[x y] z]; reflexivity.
Qed.
Lemma alone_paths k n : forall paths node tr, alone E (eval_paths_t E k n paths node tr) = eval_paths E k n paths node tr.
Proof.
  induction paths as [|p paths IH]; intros node tr; cbn [eval_paths_t eval_paths alone]; [reflexivity|]. rewrite alone_bind. apply bind_ext; [reflexivity|intros _]. rewrite alone_bind, alone_traverse. apply bind_ext; [reflexivity|].
  intros [[root nd] tr']. cbv zeta. rewrite alone_bind. apply bind_ext; [reflexivity|intros w]. rewrite alone_bind, IH. apply bind_ext; [reflexivity|]. intros [[x y] z]. reflexivity.
Qed.
Lemma alone_tree k paths n tr : alone E (eval_tree_t E k paths n tr) = eval_tree E k paths n tr.
Proof.
  unfold eval_tree_t, eval_tree. cbv zeta. rewrite alone_bind, alone_paths. apply bind_ext; [reflexivity|]. intros [[root vals] tr1]. rewrite alone_bind, alone_traverse. apply bind_ext; [reflexivity|]. intros [[root2 nl] tr2].
  rewrite alone_bind. apply bind_ext; [reflexivity|intros y]. rewrite alone_bind, alone_traverse. apply bind_ext; [reflexivity|]. intros [[root3 nr] tr3]. rewrite alone_bind. apply bind_ext; [reflexivity|intros yr].
  rewrite alone_bind. apply bind_ext; [reflexivity|intros c]. reflexivity.
Qed.
Lemma alone_node c p d : alone E (make_tree_node_t E c p d) = make_tree_node E c p d.
Proof.
  unfold make_tree_node_t, make_tree_node. cbv zeta. rewrite alone_bind, alone_par. apply bind_ext; [|reflexivity]. apply mapMi_ext. intros i hr.
  rewrite alone_bind. apply bind_ext; [reflexivity|intros k]. rewrite alone_bind. apply bind_ext; [reflexivity|intros st]. apply alone_bit.
Qed.
Lemma alone_flp c a b : alone E (run_flp_queries_t E c a b) = run_flp_queries E c a b.
Proof.
  unfold run_flp_queries_t, run_flp_queries. rewrite alone_bind. apply bind_ext; [reflexivity|intros n0]. rewrite alone_bind. apply bind_ext; [reflexivity|intros _]. rewrite alone_bind. apply bind_ext; [reflexivity|intros _].
  rewrite alone_bind, alone_node. apply bind_ext; [reflexivity|intros nl]. rewrite alone_bind, alone_node. apply bind_ext; [reflexivity|intros nr]. rewrite alone_bind. apply bind_ext; [reflexivity|intros _]. apply alone_map. reflexivity.
Qed.
Lemma alone_children c b : alone E (crawl_children_t E c b) = crawl_children E c b.
Proof.
  unfold crawl_children_t, crawl_children. rewrite alone_bind. apply bind_ext; [|reflexivity]. apply alone_map. intros node. rewrite alone_bind. apply bind_ext; [reflexivity|intros _].
  rewrite alone_bind, alone_node. apply bind_ext; [reflexivity|intros x]. rewrite alone_bind, alone_node. reflexivity.
Qed.
Lemma alone_checks c l next : alone E (y_checks_t E c l next) = y_checks E c l next.
Proof.
  unfold y_checks_t, y_checks. rewrite alone_par. apply mapMi_ext. intros i node. do 4 (rewrite alone_bind; apply bind_ext; [reflexivity|intros ?]). rewrite alone_par. reflexivity.
Qed.
Lemma alone_crawl c sp m l : alone E (tree_crawl_t E c sp m l) = tree_crawl E c sp m l.
Proof.
  unfold tree_crawl_t, tree_crawl. rewrite alone_bind. apply bind_ext; [reflexivity|intros c1]. rewrite alone_bind. apply bind_ext; [reflexivity|intros n0]. cbv zeta. rewrite alone_bind. apply bind_ext; [reflexivity|intros _].
  rewrite alone_bind, alone_children. apply bind_ext; [reflexivity|intros next]. rewrite alone_bind, alone_checks. apply bind_ext; [reflexivity|intros checks]. rewrite alone_bind. apply bind_ext; [apply alone_map; reflexivity|intros hashes].
  rewrite alone_bind. apply bind_ext; [reflexivity|intros _]. rewrite alone_bind. apply bind_ext; [reflexivity|]. intros [x y]. reflexivity.
Qed.
Lemma alone_last c : alone E (tree_crawl_last_t E c) = tree_crawl_last E c.
Proof.
  unfold tree_crawl_last_t, tree_crawl_last. rewrite alone_bind, alone_children. apply bind_ext; [reflexivity|intros next]. rewrite alone_bind. apply bind_ext; [apply alone_map; reflexivity|reflexivity].
Qed.
Lemma alone_abm c attrs a b : alone E (abm_validate_t E c attrs a b) = abm_validate E c attrs a b.
Proof.
  unfold abm_validate_t, abm_validate. destruct (b <? a); [reflexivity|]. rewrite alone_bind. apply bind_ext; [|reflexivity]. apply alone_map. intros i. unfold abm_validate_one_t, abm_validate_one.
  rewrite alone_bind. apply bind_ext; [reflexivity|intros hr]. rewrite alone_bind. apply bind_ext; [reflexivity|intros k]. rewrite alone_bind, alone_tree. apply bind_ext; [reflexivity|]. intros [[x y] z].
  do 4 (rewrite alone_bind; apply bind_ext; [reflexivity|intros ?]). reflexivity.
Qed.
Lemma alone_pm c sid a b : alone E (pm_validate_t E c sid a b) = pm_validate E c sid a b.
Proof.
  unfold pm_validate_t, pm_validate. destruct (b <? a); [reflexivity|]. destruct (sid <? 0)%Z; [reflexivity|]. destruct (negb _); [reflexivity|]. rewrite alone_bind. apply bind_ext; [apply alone_map; reflexivity|reflexivity].
Qed.
Lemma alone_body s q : alone E (body_t E s q) = body E s q.
Proof.
  destruct q; try reflexivity; cbn [body_t body]; cbv zeta.
  - rewrite alone_bind. apply bind_ext; [reflexivity|intros _]. rewrite alone_bind, alone_flp. reflexivity.
  - rewrite alone_bind, alone_crawl. apply bind_ext; [reflexivity|]. intros [c' [[v r] i]]. reflexivity.
  - rewrite alone_bind, alone_last. apply bind_ext; [reflexivity|]. intros [c' v]. reflexivity.
  - rewrite alone_bind, alone_abm. apply bind_ext; [reflexivity|]. intros [c' v]. reflexivity.
  - rewrite alone_bind, alone_pm. apply bind_ext; [reflexivity|]. intros [c' v]. reflexivity.
Qed.

(** seeds *)
Lemma lxor_key a b : is_key a -> is_key b -> is_key (seed_xor a b).
Proof.
  intros [La Ba] [Lb Bb]. split; [apply seed_xor_length; assumption|]. unfold seed_xor. clear La Lb. revert b Bb. induction Ba as [|x a Hx Ba IH]; intros [|y b] Bb; try constructor.
  - inversion Bb. apply lxor_byte; assumption.
  - inversion Bb. apply IH. assumption.
Qed.
Lemma stream_key k a : is_key k -> is_key (stream_bytes E k a 16).
Proof. intros H. split; [unfold stream_bytes; rewrite map_length, seq_length; reflexivity|apply stream_bytes_range; assumption]. Qed.
Lemma zero_key : is_key (repeat 0%N 16).
Proof. apply is_key_dec. reflexivity. Qed.
Lemma expand_keys key l r o : is_key key -> expand_dir E key l r = Ret o -> forall b, is_key (tget (po_seeds o) b).
Proof.
  intros Hk Ho b. destruct (C06_expand_dir_lemma E stream_new stream_new key l r Hok Hk eq_refl eq_refl) as (s1 & s2 & o' & _ & _ & _ & _ & H & Hs). assert (o' = o) by congruence. subst o'. rewrite Hs.
  pose proof (is_key_mask _ Hk) as Hm. destruct b, l, r; cbn [tget fst snd]; first [apply stream_key; exact Hm|apply zero_key].
Qed.
Lemma convert_key key n seed w : is_key key -> convert E key n = Ret (seed, w) -> is_key seed.
Proof.
  intros Hk H. destruct (C06_convert_lemma E stream_new stream_new key n Hok Hk eq_refl eq_refl) as (s1 & s2 & sd & w' & _ & _ & _ & _ & H' & Hs & _). rewrite H in H'. injection H' as -> _. rewrite Hs. apply stream_key. exact Hk.
Qed.

Lemma good_pure A (o : outcome A) : good E (pure o).
Proof. exact I. Qed.
Lemma bit_good k st d bs n : key16 k -> is_key (es_seed st) -> good E (eval_bit_t E k st d bs n) /\ forall st' w, eval_bit E k st d bs n = Ret (st', w) -> is_key (es_seed st').
Proof.
  intros [_ Hc] Hs.
  assert (Hseed : forall tau seed nb, expand_dir E (es_seed st) (negb d) d = Ret tau ->
    (if es_bit st then let! cw := index (cor_words k) (es_level st) in Ret (seed_xor (tget (po_seeds tau) d) (cw_seed cw), xorb (tget (po_bits tau) d) (tget (cw_bits cw) d)) else Ret (tget (po_seeds tau) d, tget (po_bits tau) d)) = Ret (seed, nb) -> is_key seed).
  { intros tau seed nb Ht. pose proof (expand_keys _ _ _ _ Hs Ht d) as Hd. destruct (es_bit st).
    - unfold index. destruct (nth_error (cor_words k) (es_level st)) as [cw|] eqn:Hcw; cbn [bind]; [|discriminate]. intros H. injection H as <- _. apply lxor_key; [exact Hd|].
      rewrite Forall_forall in Hc. apply Hc. eapply nth_error_In. exact Hcw.
    - intros H. injection H as <- _. exact Hd. }
  split.
  - unfold eval_bit_t. cbn [good]. split; [exact Hs|]. intros tau Ht. cbv zeta. apply good_bind; [apply good_pure|]. intros [seed nb] Hp. cbn [good]. split; [eapply Hseed; eassumption|]. intros [ns w] _. exact I.
  - intros st' w H. unfold eval_bit in H. destruct (expand_dir E (es_seed st) (negb d) d) as [tau|] eqn:Ht; [|discriminate]. cbn [bind] in H. cbv zeta in H.
    destruct (if es_bit st then _ else _) as [[seed nb]|] eqn:Hp; [|discriminate]. cbn [bind] in H. specialize (Hseed tau seed nb eq_refl Hp). destruct (convert E seed n) as [[ns wd]|] eqn:Hcv; [|discriminate]. cbn [bind] in H.
    destruct (if nb then _ else _) as [w2|]; [|discriminate]. cbn [bind] in H. destruct (if negb nb then _ else _) as [h|]; [|discriminate]. cbn [bind] in H. injection H as <- _. cbn [es_seed]. eapply convert_key; eassumption.
Qed.

Fixpoint enode16 (n : enode) : Prop :=
  let '(ENode _ _ _ st l r) := n in is_key (es_seed st) /\ (match l with Some c => enode16 c | None => True end) /\ (match r with Some c => enode16 c | None => True end).
Lemma next_good k bs st b n : key16 k -> is_key (es_seed st) -> good E (node_next_t E k bs st b n) /\ forall c, node_next E k bs st b n = Ret c -> enode16 c.
Proof.
  intros Hk Hs. destruct (bit_good k st b (bs ++ [bit_char b]) n Hk Hs) as [Hg Hr]. split.
  - unfold node_next_t. cbv zeta. apply good_bind; [exact Hg|]. intros [st' w] _. exact I.
  - intros c H. unfold node_next in H. cbv zeta in H. destruct (eval_bit _ _ _ _ _ _) as [[st' w]|] eqn:He; [|discriminate]. cbn [bind] in H. injection H as <-. cbn. split; [eapply Hr; reflexivity|auto].
Qed.
Lemma traverse_good k n : key16 k -> forall path node tr, enode16 node -> good E (traverse_t E k n path node tr) /\ forall root res tr', traverse E k n path node tr = Ret (root, res, tr') -> enode16 root.
Proof.
  intros Hk. induction path as [|b path IH]; intros [bs w pc st l r] tr Hn; cbn [traverse_t traverse].
  - split; [exact I|]. intros root res tr' H. injection H as <- <- <-. exact Hn.
  - cbv zeta. pose proof Hn as (Hs & Hl & Hr). destruct (next_good k bs st false n Hk Hs) as [Gl Rl]. destruct (next_good k bs st true n Hk Hs) as [Gr Rr].
    split.
    + apply good_bind.
      { destruct l; [exact I|]. apply good_bind; [exact Gl|intros c _; exact I]. }
      intros [ln p] Hp. assert (Hln : enode16 ln).
      { destruct l as [c|]; cbn [alone] in Hp; [injection Hp as <- _; exact Hl|]. rewrite alone_bind, alone_next in Hp. destruct (node_next E k bs st false n) as [c|] eqn:Hc; [|discriminate]. cbn [bind alone] in Hp. injection Hp as <- _. apply Rl. reflexivity. }
      apply good_bind.
      { destruct r; [exact I|]. apply good_bind; [exact Gr|intros c _; exact I]. }
      intros [rn p'] Hp'. assert (Hrn : enode16 rn).
      { destruct r as [c|]; cbn [alone] in Hp'; [injection Hp' as <- _; exact Hr|]. rewrite alone_bind, alone_next in Hp'. destruct (node_next E k bs st true n) as [c|] eqn:Hc; [|discriminate]. cbn [bind alone] in Hp'. injection Hp' as <- _. apply Rr. reflexivity. }
      destruct (match p' with Some _ => _ | None => _ end) as [pc' tr1]. destruct (negb b); (apply good_bind; [apply IH; assumption|]); intros [[x y] z] _; exact I.
    + intros root res tr'.
      destruct (match l with None => _ | Some _ => _ end) as [[ln p]|] eqn:Hp; [|discriminate]. cbn [bind]. assert (Hln : enode16 ln).
      { destruct l as [c|]; [injection Hp as <- _; exact Hl|]. destruct (node_next E k bs st false n) as [c|] eqn:Hc; [|discriminate]. cbn [bind] in Hp. injection Hp as <- _. apply Rl. reflexivity. }
      destruct (match r with None => _ | Some _ => _ end) as [[rn p']|] eqn:Hp'; [|discriminate]. cbn [bind]. assert (Hrn : enode16 rn).
      { destruct r as [c|]; [injection Hp' as <- _; exact Hr|]. destruct (node_next E k bs st true n) as [c|] eqn:Hc; [|discriminate]. cbn [bind] in Hp'. injection Hp' as <- _. apply Rr. reflexivity. }
      destruct (match p' with Some _ => _ | None => _ end) as [pc' tr1]. destruct (negb b).
      * destruct (traverse E k n path ln tr1) as [[[x y] z]|] eqn:Ht; [|discriminate]. cbn [bind]. intros H. injection H as <- _ _. cbn. split; [exact Hs|]. split; [eapply IH; [exact Hln|exact Ht]|exact Hrn].
      * destruct (traverse E k n path rn tr1) as [[[x y] z]|] eqn:Ht; [|discriminate]. cbn [bind]. intros H. injection H as <- _ _. cbn. split; [exact Hs|]. split; [exact Hln|eapply IH; [exact Hrn|exact Ht]].
Qed.
Lemma paths_good k n : key16 k -> forall paths node tr, enode16 node -> good E (eval_paths_t E k n paths node tr) /\ forall root vals tr', eval_paths E k n paths node tr = Ret (root, vals, tr') -> enode16 root.
Proof.
  intros Hk. induction paths as [|p paths IH]; intros node tr Hn; cbn [eval_paths_t eval_paths].
  - split; [exact I|]. intros root vals tr' H. injection H as <- _ _. exact Hn.
  - destruct (traverse_good k n Hk p node tr Hn) as [Gt Rt]. split.
    + apply good_bind; [apply good_pure|intros _ _]. apply good_bind; [exact Gt|]. intros [[root nd] tr1] H. rewrite alone_traverse in H. cbv zeta. apply good_bind; [apply good_pure|intros w _].
      apply good_bind; [apply IH; eapply Rt; exact H|]. intros [[x y] z] _. exact I.
    + intros root vals tr'. destruct (assert_ _); [|discriminate]. cbn [bind]. destruct (traverse E k n p node tr) as [[[root1 nd] tr1]|] eqn:Ht; [|discriminate]. cbn [bind]. cbv zeta. destruct (unwrap _); [|discriminate]. cbn [bind].
      destruct (eval_paths _ _ _ _ _ _) as [[[x y] z]|] eqn:Hp; [|discriminate]. cbn [bind]. intros H. injection H as <- _ _. eapply IH; [|exact Hp]. eapply Rt. reflexivity.
Qed.
Lemma tree_good k paths n tr : key16 k -> good E (eval_tree_t E k paths n tr).
Proof.
  intros Hk. unfold eval_tree_t. cbv zeta. assert (H0 : enode16 (new_root_from_key k)) by (cbn; split; [apply Hk|auto]).
  destruct (paths_good k n Hk paths _ tr H0) as [G0 R0]. apply good_bind; [exact G0|]. intros [[r1 vals] tr1] H1. rewrite alone_paths in H1. specialize (R0 _ _ _ H1).
  destruct (traverse_good k n Hk [false] r1 tr1 R0) as [G1 R1]. apply good_bind; [exact G1|]. intros [[r2 nl] tr2] H2. rewrite alone_traverse in H2. specialize (R1 _ _ _ H2).
  apply good_bind; [apply good_pure|intros y _]. destruct (traverse_good k n Hk [true] r2 tr2 R1) as [G2 _]. apply good_bind; [exact G2|]. intros [[r3 nr] tr3] _.
  apply good_bind; [apply good_pure|intros yr _]. apply good_bind; [apply good_pure|intros cn _]. exact I.
Qed.
Lemma cor_good bit beta bits seeds : is_key (fst seeds) -> is_key (snd seeds) -> good E (gen_cor_word_t E bit beta bits seeds) /\
  forall cw bits' seeds', gen_cor_word E bit beta bits seeds = Ret (cw, bits', seeds') -> is_key (fst seeds') /\ is_key (snd seeds').
Proof.
  intros H0 H1.
  assert (Hns : forall d old keep cs cb, (forall b, is_key (tget (po_seeds d) b)) -> is_key cs -> is_key (fst (next_seed_bit d old keep cs cb))).
  { intros d old keep cs cb Hd Hc. unfold next_seed_bit. cbn [fst]. destruct old; [apply lxor_key; [apply Hd|exact Hc]|apply Hd]. }
  split.
  - unfold gen_cor_word_t. cbn [good]. split; [exact H0|]. intros d0 E0. split; [exact H1|]. intros d1 E1. cbv zeta. pose proof (expand_keys _ _ _ _ H0 E0) as K0. pose proof (expand_keys _ _ _ _ H1 E1) as K1.
    assert (Hc : is_key (seed_xor (tget (po_seeds d0) (negb bit)) (tget (po_seeds d1) (negb bit)))) by (apply lxor_key; auto).
    pose proof (fun o cb => Hns d0 o bit _ cb K0 Hc) as N0. pose proof (fun o cb => Hns d1 o bit _ cb K1 Hc) as N1.
    match goal with |- context [next_seed_bit d0 ?a ?b ?c ?d] => specialize (N0 a d); specialize (N1 (snd bits) d); destruct (next_seed_bit d0 a b c d) as [s0 b0]; destruct (next_seed_bit d1 (snd bits) b c d) as [s1 b1] end.
    cbn [fst good] in *. split; [exact N0|]. intros [c0 w0] _. split; [exact N1|]. intros [c1 w1] _. exact I.
  - intros cw bits' seeds'. unfold gen_cor_word, expand. destruct (expand_dir E (fst seeds) true true) as [d0|] eqn:E0; [|discriminate]. cbn [bind]. destruct (expand_dir E (snd seeds) true true) as [d1|] eqn:E1; [|discriminate]. cbn [bind]. cbv zeta.
    pose proof (expand_keys _ _ _ _ H0 E0) as K0. pose proof (expand_keys _ _ _ _ H1 E1) as K1.
    assert (Hc : is_key (seed_xor (tget (po_seeds d0) (negb bit)) (tget (po_seeds d1) (negb bit)))) by (apply lxor_key; auto).
    pose proof (fun o cb => Hns d0 o bit _ cb K0 Hc) as N0. pose proof (fun o cb => Hns d1 o bit _ cb K1 Hc) as N1.
    match goal with |- context [next_seed_bit d0 ?a ?b ?c ?d] => specialize (N0 a d); specialize (N1 (snd bits) d); destruct (next_seed_bit d0 a b c d) as [s0 b0]; destruct (next_seed_bit d1 (snd bits) b c d) as [s1 b1] end.
    cbn [fst] in *. destruct (convert E s0 _) as [[c0 w0]|] eqn:V0; [|discriminate]. cbn [bind]. destruct (convert E s1 _) as [[c1 w1]|] eqn:V1; [|discriminate]. cbn [bind]. intros H. injection H as _ _ <-. cbn [fst snd].
    split; [eapply convert_key; [|exact V0]; exact N0|eapply convert_key; [|exact V1]; exact N1].
Qed.
Lemma loop_good beta : forall alpha bs bits seeds, is_key (fst seeds) -> is_key (snd seeds) -> good E (gen_loop_t E alpha beta bs bits seeds).
Proof.
  induction alpha as [|b alpha IH]; intros bs bits seeds H0 H1; cbn [gen_loop_t]; [exact I|]. cbv zeta. destruct (cor_good b beta bits seeds H0 H1) as [G R]. apply good_bind; [exact G|]. intros [[cw bits'] seeds'] H. rewrite alone_cor in H.
  destruct (R _ _ _ H) as [S0 S1]. apply good_bind; [apply IH; assumption|]. intros [x y] _. exact I.
Qed.
Lemma reports_good len cls : Forall client16 cls -> good E (gen_reports_t E len cls).
Proof.
  intros H. apply good_par. intros i cl Hcl. rewrite Forall_forall in H. destruct (H cl (nth_error_In _ _ Hcl)) as [H0 H1]. unfold gen_report_t. apply good_bind; [apply good_pure|intros beta _].
  apply good_bind; [|intros [k0 k1] _; cbv zeta; apply good_bind; [apply good_pure|intros pr _; exact I]]. unfold gen_t. apply good_bind; [apply loop_good; assumption|]. intros [x y] _. exact I.
Qed.

Lemma report_key r k : report16 r -> unwrap_vidpf_key r = Ret k -> key16 k.
Proof. destruct r; cbn; [|discriminate]. intros H K. injection K as <-. exact H. Qed.
Lemma node_good c p d : Forall (fun hr : bool * report_share => report16 (snd hr)) (c_reports c) -> node16 p -> good E (make_tree_node_t E c p d) /\ forall n, make_tree_node E c p d = Ret n -> node16 n.
Proof.
  intros Hr Hp. assert (Hst : forall i st, index (tn_states p) i = Ret st -> is_key (es_seed st)).
  { intros i st H. unfold index in H. destruct (nth_error (tn_states p) i) as [x|] eqn:Hx; [|discriminate]. injection H as <-. unfold node16 in Hp. rewrite Forall_forall in Hp. apply Hp. eapply nth_error_In. exact Hx. }
  split.
  - unfold make_tree_node_t. cbv zeta. apply good_bind; [|intros res _; exact I]. apply good_par. intros i hr Hhr. apply good_bind; [apply good_pure|intros k Hk]. apply good_bind; [apply good_pure|intros st Hs]. cbn [alone pure] in Hk, Hs.
    apply bit_good; [|eapply Hst; exact Hs]. eapply report_key; [|exact Hk]. rewrite Forall_forall in Hr. apply (Hr hr). eapply nth_error_In. exact Hhr.
  - intros n H. unfold make_tree_node in H. cbv zeta in H. destruct (mapMi _ 0 _) as [res|] eqn:Hm; [|discriminate]. cbn [bind] in H. injection H as <-. unfold node16. cbn [tn_states].
    assert (Hall : forall l i res, Forall (fun hr : bool * report_share => report16 (snd hr)) l -> mapMi (fun i (hr : bool * report_share) => let! k := unwrap_vidpf_key (snd hr) in let! st := index (tn_states p) i in eval_bit E k st d (bits_to_bitstring (tn_path p) ++ [bit_char d]) (c_len c)) i l = Ret res -> Forall (fun st => is_key (es_seed st)) (map fst res)).
    { induction l as [|hr l IH]; intros i rs Hl Hrs; cbn [mapMi] in Hrs; [injection Hrs as <-; constructor|]. inversion Hl as [|? ? Hh Ht]; subst.
      destruct (unwrap_vidpf_key (snd hr)) as [k|] eqn:Hk; [|discriminate]. cbn [bind] in Hrs. destruct (index (tn_states p) i) as [st|] eqn:Hs; [|discriminate]. cbn [bind] in Hrs.
      destruct (eval_bit _ _ _ _ _ _) as [[st' w]|] eqn:He; [|discriminate]. cbn [bind] in Hrs. destruct (mapMi _ (S i) l) as [rs'|] eqn:Hm'; [|discriminate]. cbn [bind] in Hrs. injection Hrs as <-. cbn [map fst]. constructor.
      - eapply (bit_good k st d); [eapply report_key; eassumption|eapply Hst; exact Hs|exact He].
      - eapply IH; eassumption. }
    eapply Hall; eassumption.
Qed.
Lemma children_good c b : Forall (fun hr : bool * report_share => report16 (snd hr)) (c_reports c) -> Forall node16 (c_frontier c) -> good E (crawl_children_t E c b).
Proof.
  intros Hr Hf. unfold crawl_children_t. apply good_bind; [|intros x _; exact I]. apply good_par. intros i node Hn. rewrite Forall_forall in Hf. specialize (Hf node (nth_error_In _ _ Hn)).
  apply good_bind; [apply good_pure|intros _ _]. apply good_bind; [apply node_good; assumption|intros x _]. apply good_bind; [apply node_good; assumption|intros y _]. exact I.
Qed.
Lemma reject_reports c m c' : reject_clients c m = Ret c' -> Forall (fun hr : bool * report_share => report16 (snd hr)) (c_reports c) -> Forall (fun hr : bool * report_share => report16 (snd hr)) (c_reports c') /\ c_frontier c' = c_frontier c /\ c_prev c' = c_prev c.
Proof.
  unfold reject_clients. destruct (foldM _ (c_reports c) m) as [reps|] eqn:Hf; [|discriminate]. cbn [bind]. intros H Hr. injection H as <-. split; [|split; reflexivity]. cbn [c_reports set_reports].
  revert Hf Hr. generalize (c_reports c). induction m as [|i m IH]; intros l Hf Hr; cbn [foldM] in Hf; [injection Hf as <-; exact Hr|].
  unfold index in Hf. destruct (nth_error l i) as [hr|] eqn:Hi; [|discriminate]. cbn [bind] in Hf. eapply IH; [exact Hf|]. clear - Hr Hi. revert i Hi. induction Hr as [|x l Hx Hr IH]; intros i Hi; [destruct i; discriminate|].
  destruct i as [|i]; cbn in Hi |- *; [injection Hi as <-|]; constructor; auto.
Qed.
Lemma prepare16 c m l c' : coll16 c -> crawl_prepare c m l = Ret c' -> Forall (fun hr : bool * report_share => report16 (snd hr)) (c_reports c') /\ Forall node16 (c_frontier c').
Proof.
  intros (Hr & Hf & Hp). unfold crawl_prepare. destruct m as [|i m]; [intros H; injection H as <-; auto|].
  destruct l; cbn [bind].
  - destruct (reject_clients c (i :: m)) as [c1|] eqn:Hc; [|discriminate]. cbn [bind]. intros H. injection H as <-. destruct (reject_reports _ _ _ Hc Hr) as (R & _ & P). cbn [c_reports c_frontier set_frontier]. rewrite P. auto.
  - intros H. injection H as <-. cbn [c_reports c_frontier set_frontier]. auto.
Qed.
Lemma body_good s q : coll16 (s_coll s) -> good E (body_t E s q).
Proof.
  intros Hc. pose proof Hc as (Hr & Hf & Hp). destruct q; try exact I; cbn [body_t]; cbv zeta.
  - apply good_bind; [apply good_pure|intros _ _]. apply good_bind; [|intros v _; exact I]. unfold run_flp_queries_t. apply good_bind; [apply good_pure|intros n0 H0]. cbn [alone pure] in H0.
    assert (H16 : node16 n0). { unfold index in H0. destruct (nth_error (c_frontier (s_coll s)) 0) as [x|] eqn:Hx; [|discriminate]. injection H0 as <-. rewrite Forall_forall in Hf. apply Hf. eapply nth_error_In. exact Hx. }
    apply good_bind; [apply good_pure|intros _ _]. apply good_bind; [apply good_pure|intros _ _]. apply good_bind; [apply node_good; assumption|intros x _]. apply good_bind; [apply node_good; assumption|intros y _].
    apply good_bind; [apply good_pure|intros _ _]. apply good_par. intros. apply good_pure.
  - apply good_bind; [|intros [c' [[v r] i]] _; exact I]. unfold tree_crawl_t. apply good_bind; [apply good_pure|intros c1 H1]. cbn [alone pure] in H1. destruct (prepare16 _ _ _ _ Hc H1) as [R1 F1].
    apply good_bind; [apply good_pure|intros n0 _]. cbv zeta. apply good_bind; [apply good_pure|intros _ _]. apply good_bind; [apply children_good; assumption|intros next _].
    apply good_bind.
    { unfold y_checks_t. apply good_par. intros i node _. apply good_bind; [apply good_pure|intros ? _]. apply good_bind; [apply good_pure|intros ? _]. apply good_bind; [apply good_pure|intros _ _]. apply good_bind; [apply good_pure|intros _ _]. apply good_par. intros. apply good_pure. }
    intros checks _. apply good_bind; [apply good_par; intros; apply good_pure|intros hs _]. apply good_bind; [apply good_pure|intros _ _]. apply good_bind; [apply good_pure|intros [x y] _]. exact I.
  - apply good_bind; [|intros [c' v] _; exact I]. unfold tree_crawl_last_t. apply good_bind; [apply children_good; assumption|intros next _]. apply good_bind; [apply good_par; intros; apply good_pure|intros ps _]. exact I.
  - apply good_bind; [|intros [c' v] _; exact I]. unfold abm_validate_t. destruct (_ <? _); [exact I|]. apply good_bind; [|intros x _; exact I]. apply good_par. intros i j _. unfold abm_validate_one_t.
    apply good_bind; [apply good_pure|intros hr Hhr]. apply good_bind; [apply good_pure|intros k Hk]. cbn [alone pure] in Hhr, Hk. apply good_bind.
    + apply tree_good. eapply report_key; [|exact Hk]. unfold index in Hhr. destruct (nth_error _ j) as [x|] eqn:Hx; [|discriminate]. injection Hhr as <-. rewrite Forall_forall in Hr. apply (Hr x). eapply nth_error_In. exact Hx.
    + intros [[x y] z] _. apply good_bind; [apply good_pure|intros ? _]. apply good_bind; [apply good_pure|intros ? _]. apply good_bind; [apply good_pure|intros ? _]. apply good_bind; [apply good_pure|intros ? _]. exact I.
  - apply good_bind; [|intros [c' v] _; exact I]. unfold pm_validate_t. destruct (_ <? _); [exact I|]. destruct (_ <? _)%Z; [exact I|]. destruct (negb _); [exact I|]. apply good_bind; [apply good_par; intros; apply good_pure|intros x _; exact I].
Qed.
End Env.

Lemma body_free : forall E s q, env_ok E -> coll16 (s_coll s) -> schedule_free E (body_t E s q) (body E s q).
Proof. intros E s q Hok Hc. rewrite <- (alone_body E s q). apply good_free; [exact Hok|]. apply body_good; assumption. Qed.
Lemma reports_free : forall E len cls, env_ok E -> Forall client16 cls -> schedule_free E (gen_reports_t E len cls) (mapM (gen_report E len) cls).
Proof. intros E len cls Hok H. rewrite <- (alone_reports E len cls). apply good_free; [exact Hok|]. apply reports_good; assumption. Qed.

(** *** seeds stay 16 bytes *)
Lemma index_in {A} (l : list A) i a : index l i = Ret a -> In a l.
Proof. unfold index. destruct (nth_error l i) eqn:H; [|discriminate]. intros K. injection K as <-. eapply nth_error_In. exact H. Qed.
Lemma children16 E c b next : env_ok E -> Forall (fun hr : bool * report_share => report16 (snd hr)) (c_reports c) -> Forall node16 (c_frontier c) -> crawl_children E c b = Ret next -> Forall node16 next.
Proof.
  intros Hok Hr Hf. unfold crawl_children. destruct (mapM _ (c_frontier c)) as [pairs|] eqn:Hm; [|discriminate]. cbn [bind]. intros H. injection H as <-.
  revert pairs Hm. induction Hf as [|n l Hn Hf IH]; intros pairs Hm; cbn [mapM] in Hm; [injection Hm as <-; constructor|].
  destruct (if b then _ else _); [|discriminate]. cbn [bind] in Hm. destruct (make_tree_node E c n false) as [x|] eqn:Hx; [|discriminate]. cbn [bind] in Hm. destruct (make_tree_node E c n true) as [y|] eqn:Hy; [|discriminate]. cbn [bind] in Hm.
  destruct (mapM _ l) as [ps|]; [|discriminate]. cbn [bind] in Hm. injection Hm as <-. cbn [concat]. apply Forall_app. split; [|apply IH; reflexivity].
  constructor; [|constructor; [|constructor]]; eapply node_good; eassumption.
Qed.
Lemma prune16 {A} (P : A -> Prop) alive : forall n l l', prune_loop alive n l = Ret l' -> Forall P l -> Forall P l'.
Proof.
  induction n as [|n IH]; intros l l' H HP; cbn [prune_loop] in H; [injection H as <-; exact HP|]. destruct (index alive n) as [a|]; [|discriminate]. cbn [bind] in H. destruct a; [eapply IH; eassumption|].
  destruct (n <? length l); [|discriminate]. eapply IH; [exact H|]. unfold vec_remove. apply Forall_app. split; [apply Forall_firstn|apply Forall_skipn]; exact HP.
Qed.
Lemma update16 i (hr : bool * report_share) : forall l, nth_error l i = Some hr -> forall b, Forall (fun hr : bool * report_share => report16 (snd hr)) l -> Forall (fun hr : bool * report_share => report16 (snd hr)) (update i (b, snd hr) l).
Proof.
  revert hr. induction i as [|i IH]; intros hr [|x l] Hn b Hl; try discriminate; cbn in Hn |- *; inversion Hl; subst.
  - injection Hn as ->. constructor; assumption.
  - constructor; [assumption|]. eapply IH; eassumption.
Qed.
Lemma keep16 : forall keep i l l', apply_keep keep i l = Ret l' -> Forall (fun hr : bool * report_share => report16 (snd hr)) l -> Forall (fun hr : bool * report_share => report16 (snd hr)) l'.
Proof.
  induction keep as [|b keep IH]; intros i l l' H Hl; cbn [apply_keep] in H; [injection H as <-; exact Hl|]. destruct (negb b); cbn [bind] in H; [|eapply IH; eassumption].
  unfold index in H. destruct (nth_error l i) as [hr|] eqn:Hi; [|discriminate]. cbn [bind] in H. eapply IH; [exact H|]. eapply update16; eassumption.
Qed.
Lemma init16 c c' : coll16 c -> tree_init c = Ret c' -> coll16 c'.
Proof.
  intros (Hr & Hf & Hp). unfold tree_init. destruct (mapM _ (c_reports c)) as [sts|] eqn:Hm; [|discriminate]. cbn [bind]. intros H. injection H as <-. split; [exact Hr|]. split; [|exact Hp]. cbn [c_frontier set_frontier]. constructor; [|constructor].
  unfold node16. cbn [tn_states]. revert sts Hm. induction Hr as [|hr l Hh Hr IH]; intros sts Hm; cbn [mapM] in Hm; [injection Hm as <-; constructor|].
  destruct (unwrap_vidpf_key (snd hr)) as [k|] eqn:Hk; [|discriminate]. cbn [bind] in Hm. destruct (mapM _ l) as [sts'|]; [|discriminate]. cbn [bind] in Hm. injection Hm as <-. constructor; [|apply IH; reflexivity].
  cbn. apply (report_key _ _ Hh Hk).
Qed.
Lemma body16 E s q c r : env_ok E -> coll16 (s_coll s) -> Forall report16 (reports_in q) -> body E s q = Ret (c, r) -> coll16 c.
Proof.
  intros Hok Hc Hq. pose proof Hc as (Hr & Hf & Hp). destruct q; cbn [body reports_in] in *; cbv zeta.
  - destruct (hist_ok _); [|discriminate]. intros H. injection H as <- _. repeat split; constructor.
  - intros H. injection H as <- _. revert Hc. clear Hr Hf Hp. generalize (s_coll s). induction Hq as [|x l Hx Hl IH]; intros c0 Hc0; [exact Hc0|]. cbn [fold_left]. apply IH. destruct Hc0 as (R & F & P).
    split; [|split; assumption]. cbn. apply Forall_app. split; [exact R|]. constructor; [exact Hx|constructor].
  - destruct (tree_init (s_coll s)) as [c'|] eqn:Hi; [|discriminate]. cbn [bind]. intros H. injection H as <- _. eapply init16; eassumption.
  - destruct (debug_assert _ _); [|discriminate]. cbn [bind]. destruct (run_flp_queries _ _ _ _); [|discriminate]. cbn [bind]. intros H. injection H as <- _. exact Hc.
  - unfold apply_flp_results. destruct (assert_ _); [|discriminate]. cbn [bind]. destruct (apply_keep _ _ _) as [reps|] eqn:Hk; [|discriminate]. cbn [bind]. intros H. injection H as <- _. split; [eapply keep16; eassumption|split; assumption].
  - unfold tree_crawl. destruct (crawl_prepare (s_coll s) malicious is_last) as [c1|] eqn:H1; [|discriminate]. cbn [bind]. destruct (prepare16 _ _ _ _ Hc H1) as [R1 F1].
    destruct (index (c_frontier c1) 0) as [n0|]; [|discriminate]. cbn [bind]. cbv zeta. destruct (if dbg E then _ else _); [|discriminate]. cbn [bind]. destruct (crawl_children E c1 true) as [next|] eqn:Hn; [|discriminate]. cbn [bind].
    destruct (y_checks _ _ _ _); [|discriminate]. cbn [bind]. destruct (mapM _ _); [|discriminate]. cbn [bind]. destruct (debug_assert _ _); [|discriminate]. cbn [bind]. destruct (merkle_part _ _ _ _ _) as [[x y]|]; [|discriminate]. cbn [bind].
    intros H. injection H as <- _. split; [exact R1|]. split; [|exact F1]. cbn. eapply children16; eassumption.
  - unfold tree_crawl_last. destruct (crawl_children E (s_coll s) false) as [next|] eqn:Hn; [|discriminate]. cbn [bind]. destruct (mapM _ _); [|discriminate]. cbn [bind]. intros H. injection H as <- _.
    split; [exact Hr|]. split; [|exact Hp]. cbn. eapply children16; eassumption.
  - destruct (debug_assert _ _); [|discriminate]. cbn [bind]. intros H. injection H as <- _. exact Hc.
  - unfold tree_prune. destruct (assert_ _); [|discriminate]. cbn [bind]. destruct (prune_loop _ _ _) as [f|] eqn:Hk; [|discriminate]. cbn [bind]. intros H. injection H as <- _. split; [exact Hr|]. split; [|exact Hp]. cbn. eapply prune16; eassumption.
  - intros H. injection H as <- _. exact Hc.
  - unfold abm_validate. destruct (_ <? _); [discriminate|]. destruct (mapM _ _); [|discriminate]. cbn [bind]. intros H. injection H as <- _. exact Hc.
  - unfold abm_result. destruct (abm_reject _ _ _); [|discriminate]. cbn [bind]. intros H. injection H as <- _. exact Hc.
  - unfold pm_validate. destruct (_ <? _); [discriminate|]. destruct (_ <? _)%Z; [discriminate|]. destruct (negb _); [discriminate|]. destruct (mapM _ _); [|discriminate]. cbn [bind]. intros H. injection H as <- _. exact Hc.
  - unfold pm_result. destruct (negb _); [discriminate|]. destruct (pm_result_loop _ _ _ _ _) as [[m o]|]; [|discriminate]. cbn [bind]. destruct (unwrap _); [|discriminate]. cbn [bind]. intros H. injection H as <- _. exact Hc.
Qed.
Lemma handle16 E s q : env_ok E -> coll16 (s_coll s) -> Forall report16 (reports_in q) -> coll16 (s_coll (fst (handle E s q))).
Proof.
  intros Hok Hc Hq. unfold handle. destruct (prelock E q); [|exact Hc]. destruct (s_poison s); [exact Hc|]. destruct (body E s q) as [[c r]|p] eqn:Hb; [|exact Hc]. cbn [fst set_coll s_coll]. eapply body16; eassumption.
Qed.
Lemma requests_free : forall E id bits hist qs q, env_ok E -> Forall (fun q => Forall report16 (reports_in q)) qs ->
  schedule_free E (body_t E (fst (handle_all E (server_start id bits hist) qs)) q) (body E (fst (handle_all E (server_start id bits hist) qs)) q).
Proof.
  intros E id bits hist qs q Hok Hqs. apply body_free; [exact Hok|].
  assert (H : forall s, coll16 (s_coll s) -> coll16 (s_coll (fst (handle_all E s qs)))).
  { induction Hqs as [|x l Hx Hl IH]; intros s Hs; [exact Hs|]. cbn [handle_all]. pose proof (handle16 E s x Hok Hs Hx) as H1. destruct (handle E s x) as [s1 a]. cbn [fst] in H1. specialize (IH s1 H1). destruct (handle_all E s1 l) as [s2 as2]. exact IH. }
  apply H. repeat split; constructor.
Qed.

(** *** the iteration order of a HashMap *)
Lemma vec_add_swap : forall a x y, vec_add (vec_add a x) y = vec_add (vec_add a y) x.
Proof.
  induction a as [|u a IH]; intros [|v x] [|w y]; cbn; try reflexivity. f_equal; [|apply IH]. ring.
Qed.
Lemma add_all_swap : forall a x y, add_all (add_all a x) y = add_all (add_all a y) x.
Proof. induction a as [|u a IH]; intros [|v x] [|w y]; cbn [add_all]; try reflexivity. rewrite vec_add_swap, IH. reflexivity. Qed.
Lemma agg_perm (m m' : list (nat * list (list fld))) : Permutation m m' -> forall agg, fold_left (fun agg kv => add_all agg (snd kv)) m agg = fold_left (fun agg kv => add_all agg (snd kv)) m' agg.
Proof.
  induction 1 as [|x l l' H IH|x y l|l1 l2 l3 H1 IH1 H2 IH2]; intros agg; cbn [fold_left]; [reflexivity|apply IH|rewrite add_all_swap; reflexivity|rewrite IH1; apply IH2].
Qed.
Lemma filter_perm {A} (f : A -> bool) l l' : Permutation l l' -> Permutation (filter f l) (filter f l').
Proof. induction 1 as [|x l l' H IH|x y l|l1 l2 l3 H1 IH1 H2 IH2]; cbn; [constructor|destruct (f x); auto|destruct (f x), (f y); auto using Permutation_refl, perm_swap|eapply perm_trans; eassumption]. Qed.
Lemma get_perm {V} (m m' : list (nat * V)) i : Permutation m m' -> (m_get m i = None <-> m_get m' i = None).
Proof.
  assert (H : forall l l' : list (nat * V), Permutation l l' -> m_get l i = None -> m_get l' i = None).
  { intros l l' Hp Hn. unfold m_get in *. destruct (find _ l') as [kv|] eqn:Hf; [|reflexivity]. exfalso. apply find_some in Hf. destruct Hf as [Hi Hk]. apply (Permutation_in _ (Permutation_sym Hp)) in Hi.
    destruct (find (fun kv => fst kv =? i) l) as [kv'|] eqn:Hl; [discriminate|]. apply (find_none _ _ Hl) in Hi. congruence. }
  intros Hp. split; apply H; [exact Hp|apply Permutation_sym; exact Hp].
Qed.
Lemma reject_perm E rej : forall m m', Permutation m m' -> (exists r r', abm_reject E m rej = Ret r /\ abm_reject E m' rej = Ret r' /\ Permutation r r') \/ exists p, abm_reject E m rej = Panic p /\ abm_reject E m' rej = Panic p.
Proof.
  unfold abm_reject. induction rej as [|i rej IH]; intros m m' Hp; cbn [foldM]; [left; eauto|]. destruct (dbg E); cbn [bind]; [|apply IH; exact Hp].
  pose proof (get_perm m m' i Hp) as Hg. destruct (m_get m i), (m_get m' i); cbn [bind]; try (exfalso; destruct Hg as [G1 G2]; first [discriminate (G1 eq_refl)|discriminate (G2 eq_refl)]).
  - apply IH. unfold m_remove. apply filter_perm. exact Hp.
  - right. eauto.
Qed.
Lemma table_order : forall E c m m' rej n, Permutation m m' ->
  (exists r r' t, abm_result E (set_abm c m) rej n = Ret (set_abm c r, t) /\ abm_result E (set_abm c m') rej n = Ret (set_abm c r', t) /\ Permutation r r') \/
  (exists p, abm_result E (set_abm c m) rej n = Panic p /\ abm_result E (set_abm c m') rej n = Panic p).
Proof.
  intros E c m m' rej n Hp. unfold abm_result. cbn [c_abm set_abm c_len]. destruct (reject_perm E rej m m' Hp) as [(r & r' & -> & -> & Hr)|(p & -> & ->)]; cbn [bind]; [left|right; eauto].
  exists r, r', (fold_left (fun agg kv => add_all agg (snd kv)) r (repeat (zeros (c_len c)) n)). split; [reflexivity|]. split; [|exact Hr]. rewrite (agg_perm r r' Hr). reflexivity.
Qed.
