(** Proofs of C54 and C55. *)
From Verif Require Import Base BaseFacts Field Util UtilFacts Env Prg PrgFacts PrgSpecFacts PrgSpecFacts2 Vidpf SpecPrg SpecVidpf SpecTree SpecHash
  VidpfFacts VidpfEvalFacts VidpfTreeFacts VidpfTreeFacts2 VidpfTreeFacts3 VidpfPropFacts RefEnv.

Lemma digit_char b : bit_char b = digit b.
Proof. destruct b; reflexivity. Qed.
Lemma C54_bitstring_lemma bits : bits_to_bitstring bits = map digit bits.
Proof. apply map_ext. exact digit_char. Qed.
Lemma digits_inj p : forall q, map digit p = map digit q -> p = q.
Proof.
  induction p as [|x p IH]; intros [|y q] H; try discriminate; [reflexivity|]. cbn [map] in H. injection H as H1 H2. f_equal; [|apply IH; exact H2].
  destruct x, y; try reflexivity; discriminate.
Qed.
Lemma C54_preimage_lemma p q (s t : bytes) : length s = length t -> map digit p ++ s = map digit q ++ t -> p = q /\ s = t.
Proof.
  intros Hl H. assert (Hp : length (map digit p) = length (map digit q)).
  { apply (f_equal (@length N)) in H. rewrite !app_length in H. lia. }
  destruct (app_inj_len _ _ _ _ Hp H) as [H1 H2]. split; [apply digits_inj; exact H1|exact H2].
Qed.

Lemma eval_bit_proof E k st d bs len st' w : env_ok E -> key_typed k -> st_typed st -> eval_bit E k st d bs len = Ret (st', w) ->
  es_proof st' = next_proof E (es_proof st) (xor_vec (firstn 16 (blake3 E (bs ++ es_seed st'))) (if es_bit st' then nth (es_level st) (cs k) [] else repeat 0%N 16)).
Proof.
  intros Hok Hty Hst H. unfold eval_bit in H. bret H as tau Ht. bret H as [sd nb] Hsd. bret H as [ns wd] Hcv. bret H as w2 Hw2. bret H as h Hh.
  injection H as <- <-. cbn [es_proof es_seed es_bit]. unfold next_proof.
  destruct nb; cbn [negb] in Hh.
  - bret Hh as c Hc. injection Hh as <-. unfold index in Hc. destruct (nth_error (cs k) (es_level st)) as [c'|] eqn:Hn; [|discriminate]. injection Hc as ->.
    rewrite (nth_error_nth _ _ _ Hn), xor_three_split. reflexivity.
  - injection Hh as <-. unfold node_hash. replace (xor_vec (firstn 16 (blake3 E (bs ++ ns))) (repeat 0%N 16)) with (firstn 16 (blake3 E (bs ++ ns))); [reflexivity|].
    assert (Hl : length (firstn 16 (blake3 E (bs ++ ns))) = 16) by (rewrite firstn_length, (blake_len E Hok); reflexivity).
    generalize dependent (firstn 16 (blake3 E (bs ++ ns))). intros l Hl.
    do 16 (destruct l as [|? l]; [discriminate|]). destruct l; [|discriminate]. cbn. rewrite !N.lxor_0_r. reflexivity.
Qed.
Lemma C54_proof_lemma E k p d len st' bs out : env_ok E -> key_typed k ->
  eval_loop E k (eval_init k) [] (p ++ [d]) len = Ret (st', bs, out) ->
  exists st bs0 out0, eval_loop E k (eval_init k) [] p len = Ret (st, bs0, out0) /\ es_level st = length p /\
    es_proof st' = next_proof E (es_proof st)
      (xor_vec (firstn 16 (blake3 E (map digit (p ++ [d]) ++ es_seed st'))) (if es_bit st' then nth (length p) (cs k) [] else repeat 0%N 16)).
Proof.
  intros Hok Hty H. rewrite eval_loop_app in H. bret H as [[st bs0] out0] H0. bret H as [[st2 bs2] o2] H1. injection H as <- <- <-.
  exists st, bs0, out0. split; [exact H0|].
  pose proof (eval_loop_evals_init _ _ _ _ _ _ _ H0) as [He _].
  assert (Hlev : forall q s w, evals E k len q s w -> es_level s = length q).
  { induction 1 as [|q s w e s' w' Hq IH Hb]; [reflexivity|]. unfold eval_bit in Hb. bret Hb as tau Ht. bret Hb as [sd nb] Hsd. bret Hb as [ns wd] Hcv. bret Hb as w2 Hw2. bret Hb as h Hh.
    injection Hb as <- <-. cbn [es_level]. rewrite IH, app_length. reflexivity. }
  pose proof (Hlev _ _ _ He) as Hl. split; [exact Hl|].
  destruct (evals_typed E Hok k len Hty _ _ _ He) as [Hst _].
  destruct (evals_eval_loop _ _ _ _ _ _ He) as [out' Ho']. rewrite Ho' in H0. injection H0 as <- <-.
  cbn [eval_loop] in H1. bret H1 as [st3 w3] Hb. cbn [bind] in H1. injection H1 as <- <- <-.
  rewrite <- bits_snoc, C54_bitstring_lemma in Hb. rewrite <- Hl. eapply eval_bit_proof; eassumption.
Qed.

(** *** C55 *)
Lemma land_252 a : (a < 256)%N -> N.land a 252 = (4 * (a / 4))%N.
Proof.
  intros Ha. apply N.bits_inj. intros i. rewrite N.land_spec. change 4%N with (2 ^ 2)%N. rewrite <- N.shiftr_div_pow2, N.mul_comm, <- N.shiftl_mul_pow2.
  destruct (N.ltb_spec i 2) as [Hi|Hi].
  - rewrite N.shiftl_spec_low by exact Hi. assert (i = 0 \/ i = 1)%N as [->| ->] by lia; rewrite andb_false_r; reflexivity.
  - rewrite N.shiftl_spec_high' by exact Hi. rewrite N.shiftr_spec'. replace (i - 2 + 2)%N with i by lia.
    destruct (N.ltb_spec i 8) as [H8|H8].
    + assert (i = 2 \/ i = 3 \/ i = 4 \/ i = 5 \/ i = 6 \/ i = 7)%N as [->|[->|[->|[->|[->| ->]]]]] by lia; apply andb_true_r.
    + replace (N.testbit a i) with false; [reflexivity|]. symmetry. rewrite N.bits_above_log2; [reflexivity|].
      destruct (N.eq_dec a 0) as [->|Hn]; [cbn; lia|]. apply N.log2_lt_pow2; [lia|]. apply (N.lt_le_trans _ (2 ^ 8)); [exact Ha|]. apply N.pow_le_mono_r; lia.
Qed.
Lemma near_mask a b : nearly_equal a b -> Forall (fun b => (b < 256)%N) a -> Forall (fun b => (b < 256)%N) b -> mask_key a = mask_key b.
Proof.
  intros (Ht & Hl & Hh) Fa Fb. destruct a as [|x a], b as [|y b]; try discriminate; [reflexivity|]. cbn in *. inversion Fa; inversion Fb; subst.
  rewrite !land_252, Hh by assumption. reflexivity.
Qed.
Lemma expand_dir_mask E a b l r : mask_key a = mask_key b -> expand_dir E a l r = expand_dir E b l r.
Proof. intros H. unfold expand_dir, expand_dir_on. rewrite H. reflexivity. Qed.

Definition near_state (st st' : eval_state) : Prop := es_level st = es_level st' /\ es_bit st = es_bit st' /\ es_proof st = es_proof st' /\ mask_key (es_seed st) = mask_key (es_seed st').
Section Near.
Variables (E : env) (k k' : vidpf_key) (len : nat).
Hypothesis Hk : key_idx k = key_idx k' /\ cor_words k = cor_words k' /\ cs k = cs k' /\ mask_key (root_seed k) = mask_key (root_seed k').
Lemma eval_bit_near st st' d bs : near_state st st' -> eval_bit E k st d bs len = eval_bit E k' st' d bs len.
Proof.
  intros (Hl & Hb & Hp & Hm). destruct Hk as (Hi & Hw & Hc & _). unfold eval_bit. rewrite Hl, Hb, Hp, Hi, Hw, Hc, (expand_dir_mask E _ _ _ _ Hm). reflexivity.
Qed.
Lemma eval_bit_keys st d bs : eval_bit E k st d bs len = eval_bit E k' st d bs len.
Proof. apply eval_bit_near. repeat split. Qed.
Lemma eval_loop_keys idx : forall st bs, eval_loop E k st bs idx len = eval_loop E k' st bs idx len.
Proof.
  induction idx as [|d idx IH]; intros st bs; [reflexivity|]. cbn [eval_loop]. rewrite eval_bit_keys.
  destruct (eval_bit E k' st d (bs ++ [bit_char d]) len) as [[st1 w]|]; [|reflexivity]. cbn [bind]. rewrite IH. reflexivity.
Qed.
Lemma eval_loop_near idx st st' bs : idx <> [] -> near_state st st' -> eval_loop E k st bs idx len = eval_loop E k' st' bs idx len.
Proof.
  intros Hne Hs. destruct idx as [|d idx]; [contradiction|]. cbn [eval_loop]. rewrite (eval_bit_near _ _ _ _ Hs).
  destruct (eval_bit E k' st' d (bs ++ [bit_char d]) len) as [[st1 w]|]; [|reflexivity]. cbn [bind]. rewrite eval_loop_keys. reflexivity.
Qed.
Lemma init_near : near_state (eval_init k) (eval_init k').
Proof. destruct Hk as (Hi & _ & _ & Hm). repeat split; assumption. Qed.
Lemma eval_near idx pi : 2 <= length idx -> eval E k idx pi len = eval E k' idx pi len.
Proof.
  intros Hi. unfold eval, domain_size. destruct Hk as (Hx & Hw & _ & Hm). rewrite Hw.
  destruct (debug_assert (dbg E) (length idx <=? length (cor_words k'))); [|reflexivity]. cbn [bind].
  destruct (debug_assert (dbg E) (negb (length idx =? 0))); [|reflexivity]. cbn [bind].
  rewrite (eval_loop_near _ _ {| es_level := 0; es_seed := root_seed k'; es_bit := key_idx k'; es_proof := pi |});
    [|intros Hc; apply (f_equal (@length bool)) in Hc; rewrite firstn_length in Hc; cbn in Hc; lia|repeat split; assumption].
  destruct (eval_loop _ _ _ _ _ _) as [[[st bs] out]|]; [|reflexivity]. cbn [bind]. destruct (unwrap _); [|reflexivity]. cbn [bind]. rewrite eval_bit_keys. reflexivity.
Qed.
Lemma node_next_keys bs st b : node_next E k bs st b len = node_next E k' bs st b len.
Proof. unfold node_next. rewrite eval_bit_keys. reflexivity. Qed.
Lemma traverse_keys path : forall n tr, traverse E k len path n tr = traverse E k' len path n tr.
Proof.
  induction path as [|b path IH]; intros [bs w pc st l r] tr; [reflexivity|]. cbn [traverse]. destruct Hk as (Hx & _).
  rewrite !node_next_keys, Hx.
  repeat match goal with |- bind ?x _ = bind ?x _ => destruct x as [?|]; cbn [bind]; [|reflexivity] end.
  repeat match goal with p : (_ * _)%type |- _ => destruct p end.
  repeat match goal with |- bind ?x _ = bind ?x _ => destruct x as [?|]; cbn [bind]; [|reflexivity] end.
  repeat match goal with p : (_ * _)%type |- _ => destruct p end.
  match goal with |- (let '(_, _) := ?x in _) = _ => destruct x end.
  rewrite !IH. reflexivity.
Qed.
(** two roots that differ in the discarded bits of their seed only *)
Definition near_root (n n' : enode) : Prop :=
  match n, n' with ENode bs w pc st l r, ENode bs' w' pc' st' l' r' => bs = bs' /\ w = w' /\ pc = pc' /\ near_state st st' /\ l = l' /\ r = r' end.
Definition rel_res {A} (x y : outcome (enode * A * bytes)) : Prop :=
  match x, y with
  | Ret (n, v, tr), Ret (n', v', tr') => near_root n n' /\ v = v' /\ tr = tr'
  | Panic a, Panic b => a = b
  | _, _ => False
  end.
Lemma traverse_near path n n' tr : path <> [] -> near_root n n' -> rel_res (traverse E k len path n tr) (traverse E k' len path n' tr).
Proof.
  intros Hne Hn. destruct path as [|b path]; [contradiction|]. destruct n as [bs w pc st l r], n' as [bs' w' pc' st' l' r'].
  destruct Hn as (<- & <- & <- & Hs & <- & <-). cbn [traverse].
  assert (Hnext : forall d, node_next E k bs st d len = node_next E k' bs st' d len).
  { intros d. unfold node_next. rewrite (eval_bit_near _ _ _ _ Hs). reflexivity. }
  rewrite !Hnext. destruct Hk as (Hx & _). rewrite Hx.
  repeat match goal with |- rel_res (bind ?x _) (bind ?x _) => destruct x as [?|]; cbn [bind]; [|reflexivity] end.
  repeat match goal with p : (_ * _)%type |- _ => destruct p end.
  repeat match goal with |- rel_res (bind ?x _) (bind ?x _) => destruct x as [?|]; cbn [bind]; [|reflexivity] end.
  repeat match goal with p : (_ * _)%type |- _ => destruct p end.
  match goal with |- rel_res (let '(_, _) := ?x in _) _ => destruct x end.
  rewrite !traverse_keys. destruct (negb b).
  - destruct (traverse E k' len path _ _) as [[[? ?] ?]|]; cbn; auto 10.
  - destruct (traverse E k' len path _ _) as [[[? ?] ?]|]; cbn; auto 10.
Qed.
Lemma eval_paths_near paths : forall n n' tr, near_root n n' -> rel_res (eval_paths E k len paths n tr) (eval_paths E k' len paths n' tr).
Proof.
  induction paths as [|p paths IH]; intros n n' tr Hn; [cbn; auto|]. cbn [eval_paths].
  destruct p as [|b p]; [reflexivity|]. cbn [length Nat.eqb negb assert_ bind].
  pose proof (traverse_near (b :: p) n n' tr ltac:(discriminate) Hn) as Ht.
  destruct (traverse E k len (b :: p) n tr) as [[[m v] t]|], (traverse E k' len (b :: p) n' tr) as [[[m' v'] t']|]; cbn in Ht; try contradiction; cbn [bind]; [|exact Ht].
  destruct Ht as (Hm & <- & <-). destruct (unwrap (n_word v)) as [w|]; cbn [bind]; [|reflexivity].
  specialize (IH m m' (t ++ es_proof (n_state v)) Hm).
  destruct (eval_paths E k len paths m _) as [[[? ?] ?]|], (eval_paths E k' len paths m' _) as [[[? ?] ?]|]; cbn in IH |- *; try contradiction; [|exact IH].
  destruct IH as (? & <- & <-). auto.
Qed.
Lemma eval_tree_near paths tr : eval_tree E k paths len tr = eval_tree E k' paths len tr.
Proof.
  unfold eval_tree. pose proof Hk as (Hx & _). rewrite <- Hx.
  assert (Hr : near_root (new_root_from_key k) (new_root_from_key k')) by (repeat split; apply init_near).
  pose proof (eval_paths_near paths _ _ tr Hr) as H.
  destruct (eval_paths E k len paths _ tr) as [[[m v] t]|], (eval_paths E k' len paths _ tr) as [[[m' v'] t']|]; cbn in H; try contradiction; cbn [bind]; [|rewrite H; reflexivity].
  destruct H as (Hm & <- & <-).
  pose proof (traverse_near [false] m m' t ltac:(discriminate) Hm) as H.
  destruct (traverse E k len [false] m t) as [[[n0 v0] t0]|], (traverse E k' len [false] m' t) as [[[n0' v0'] t0']|]; cbn in H; try contradiction; cbn [bind]; [|rewrite H; reflexivity].
  destruct H as (Hn0 & <- & <-). destruct (unwrap (n_word v0)); [|reflexivity]. cbn [bind].
  pose proof (traverse_near [true] n0 n0' t0 ltac:(discriminate) Hn0) as H.
  destruct (traverse E k len [true] n0 t0) as [[[n1 v1] t1]|], (traverse E k' len [true] n0' t0) as [[[n1' v1'] t1']|]; cbn in H; try contradiction; cbn [bind]; [|rewrite H; reflexivity].
  destruct H as (Hn1 & <- & <-). reflexivity.
Qed.
End Near.

Lemma near_keys k k' : nearly_equal_keys k k' -> key_idx k = key_idx k' /\ cor_words k = cor_words k' /\ cs k = cs k' /\ mask_key (root_seed k) = mask_key (root_seed k').
Proof. intros (Hi & Hw & Hc & Hn & F & F'). repeat split; try assumption. apply near_mask; assumption. Qed.
Lemma C55_eval_lemma E k k' : nearly_equal_keys k k' ->
  (forall path len, path <> [] -> eval_loop E k (eval_init k) [] path len = eval_loop E k' (eval_init k') [] path len) /\
  (forall idx pi len, 2 <= length idx -> eval E k idx pi len = eval E k' idx pi len) /\
  (forall paths len tr, eval_tree E k paths len tr = eval_tree E k' paths len tr).
Proof.
  intros H. apply near_keys in H. split; [|split].
  - intros path len Hp. apply eval_loop_near; [exact H|exact Hp|apply init_near; exact H].
  - intros idx pi len Hi. apply eval_near; assumption.
  - intros paths len tr. apply eval_tree_near. exact H.
Qed.
Lemma gen_loop_near E alpha beta bs bits s0 s1 s0' s1' : mask_key s0 = mask_key s0' -> mask_key s1 = mask_key s1' ->
  gen_loop E alpha beta bs bits (s0, s1) = gen_loop E alpha beta bs bits (s0', s1').
Proof.
  intros H0 H1. destruct alpha as [|b alpha]; [reflexivity|]. cbn [gen_loop]. unfold gen_cor_word, expand. cbn [fst snd].
  rewrite (expand_dir_mask E _ _ _ _ H0), (expand_dir_mask E _ _ _ _ H1). reflexivity.
Qed.
Lemma C55_gen_lemma E s0 s1 s0' s1' alpha beta k0 k1 : nearly_equal s0 s0' -> nearly_equal s1 s1' ->
  Forall (fun b => (b < 256)%N) s0 -> Forall (fun b => (b < 256)%N) s0' -> Forall (fun b => (b < 256)%N) s1 -> Forall (fun b => (b < 256)%N) s1' ->
  gen E s0 s1 alpha beta = Ret (k0, k1) ->
  exists k0' k1', gen E s0' s1' alpha beta = Ret (k0', k1') /\ nearly_equal_keys k0 k0' /\ nearly_equal_keys k1 k1'.
Proof.
  intros N0 N1 F0 F0' F1 F1' H. unfold gen in *. rewrite (gen_loop_near E alpha beta [] (false, true) s0' s1' s0 s1); [|symmetry; apply near_mask; assumption|symmetry; apply near_mask; assumption].
  bret H as [cws css] Hg. injection H as <- <-. rewrite Hg. cbn [bind]. eexists _, _. split; [reflexivity|]. split; repeat split; cbn; try assumption; try apply N0; try apply N1.
Qed.

(** *** examples *)
Definition near_seed : bytes := (1 :: tl (ex_seed 3))%N.
Definition C54_ex : bool :=
  match gen (ref_env true true) (ex_seed 3) (ex_seed 50) ex_alpha ex_beta with
  | Ret (k0, _) =>
      match eval_loop (ref_env true true) k0 (eval_init k0) [] [true; false] 2 with
      | Ret (st, bs, _) => (length (es_proof st) =? 16) && (length bs =? 2) && (nth 0 bs 0 =? 49)%N && (nth 1 bs 0 =? 48)%N
      | Panic _ => false
      end
  | Panic _ => false
  end.
Lemma C54_example_proof : C54_ex = true.
Proof. vm_cast_no_check (eq_refl true). Qed.
Definition C55_ex : bool :=
  match gen (ref_env true true) (ex_seed 3) (ex_seed 50) ex_alpha ex_beta, gen (ref_env true true) near_seed (ex_seed 50) ex_alpha ex_beta with
  | Ret (k0, _), Ret (k0', _) =>
      negb (if list_eq_dec N.eq_dec (root_seed k0) (root_seed k0') then true else false) &&
      match eval_loop (ref_env true true) k0 (eval_init k0) [] [true; false] 2, eval_loop (ref_env true true) k0' (eval_init k0') [] [true; false] 2 with
      | Ret (st, _, _), Ret (st', _, _) => if list_eq_dec N.eq_dec (es_seed st ++ es_proof st) (es_seed st' ++ es_proof st') then true else false
      | _, _ => false
      end
  | _, _ => false
  end.
Lemma C55_example_proof : C55_ex = true.
Proof. vm_cast_no_check (eq_refl true). Qed.
