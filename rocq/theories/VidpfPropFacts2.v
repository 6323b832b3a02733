(** More lemmas in the exact form of the theorems of PropVidpf.v. *)
From Verif Require Import Base BaseFacts Field Util UtilFacts Env Prg PrgFacts Vidpf SpecPrg SpecVidpf SpecTree
  VidpfFacts VidpfEvalFacts VidpfTreeFacts VidpfTreeFacts2 VidpfTreeFacts3 VidpfTreeFacts4 VidpfPropFacts RefEnv.

Lemma C03_pi_lemma E k p d pi len out lst pi' :
  eval E k (p ++ [d]) pi len = Ret (out, lst, pi') ->
  exists st bs, eval_loop E k {| es_level := 0; es_seed := root_seed k; es_bit := key_idx k; es_proof := pi |} [] p len
                  = Ret (st, bs, out) /\ pi' = es_proof st.
Proof.
  unfold eval. rewrite firstn_removelast_snoc, nth_snoc. intros H.
  bret H as ? _. bret H as ? _. bret H as [[st bs] o] He. cbn [unwrap bind] in H. bret H as [? ?] ?.
  injection H as <- <- <-. eauto.
Qed.
Definition ex_eval_check (E : env) (k0 k1 : vidpf_key) (pi : bytes) (idx : list bool) : bool :=
  match eval E k0 idx pi 2, eval E k1 idx pi 2 with
  | Ret (o0, l0, p0), Ret (o1, l1, p1) =>
      (length o0 =? 2) && fvals_eqb (vec_add l0 l1) (point_value ex_alpha ex_beta idx) &&
      fvals_eqb (vec_add (nth 1 o0 []) (nth 1 o1 [])) (point_value ex_alpha ex_beta (firstn 2 idx)) &&
      bytes_eqb p0 p1 && negb (bytes_eqb p0 pi)
  | _, _ => false
  end.
Lemma C03_example_proof :
  match gen (ref_env true true) (ex_seed 3) (ex_seed 50) ex_alpha ex_beta with
  | Ret (k0, k1) => ex_eval_check (ref_env true true) k0 k1 (ex_seed 9) [true; false; false] = true
  | Panic _ => False
  end.
Proof. vm_compute. reflexivity. Qed.

Lemma C04_lemma E seed0 seed1 alpha beta k0 k1 paths tr :
  env_ok E -> length seed0 = 16 -> length seed1 = 16 -> gen E seed0 seed1 alpha beta = Ret (k0, k1) ->
  alpha <> [] -> (forall path, In path paths -> 1 <= length path <= length alpha) ->
  exists v0 b0 v1 b1 t,
    eval_tree E k0 paths (length beta) tr = Ret (v0, b0, t) /\
    eval_tree E k1 paths (length beta) tr = Ret (v1, b1, t) /\
    length v0 = length paths /\ length v1 = length paths /\
    (forall i path w0 w1, nth_error paths i = Some path -> nth_error v0 i = Some w0 -> nth_error v1 i = Some w1 ->
       shares_of w0 w1 (point_value alpha beta path)) /\
    shares_of b0 b1 beta.
Proof.
  intros Hok H0 H1 Hg. pose proof (gen_honest E _ _ _ _ _ _ H0 H1 Hg) as Hh.
  apply (eval_tree_honest E Hok k0 k1 alpha beta Hh).
Qed.
Lemma C05_lemma E k0 k1 len paths tr v0 b0 t v1 b1 :
  env_ok E -> key_typed k0 -> key_typed k1 -> key_idx k0 = false -> key_idx k1 = true ->
  eval_tree E k0 paths len tr = Ret (v0, b0, t) -> eval_tree E k1 paths len tr = Ret (v1, b1, t) ->
  (forall path q, In path paths -> q <> [] -> proper_prefix q path ->
     exists w0 l0 r0 w1 l1 r1 a b c a' b' c',
       share_at E k0 len q = Ret (w0, a) /\ share_at E k0 len (q ++ [false]) = Ret (l0, b) /\
       share_at E k0 len (q ++ [true]) = Ret (r0, c) /\
       share_at E k1 len q = Ret (w1, a') /\ share_at E k1 len (q ++ [false]) = Ret (l1, b') /\
       share_at E k1 len (q ++ [true]) = Ret (r1, c') /\
       length w0 = len + 1 /\ length w1 = len + 1 /\
       vec_add w0 w1 = vec_add (vec_add l0 l1) (vec_add r0 r1)) /\
  (exists l0 r0 l1 r1 a b a' b',
       share_at E k0 len [false] = Ret (l0, a) /\ share_at E k0 len [true] = Ret (r0, b) /\
       share_at E k1 len [false] = Ret (l1, a') /\ share_at E k1 len [true] = Ret (r1, b') /\
       nth_error (vec_add (vec_add l0 r0) (vec_add l1 r1)) len = Some (of_Z 1) /\
       b0 = firstn len (vec_add l0 r0) /\ b1 = firstn len (vec_add l1 r1)) /\
  (length v0 = length paths /\ length v1 = length paths /\
   forall i path w0 w1, nth_error paths i = Some path -> nth_error v0 i = Some w0 -> nth_error v1 i = Some w1 ->
     exists pf, share_at E k0 len path = Ret (w0, pf) /\ share_at E k1 len path = Ret (w1, pf)).
Proof. intros Hok Hty0 Hty1 Hi0 Hi1. apply (eval_tree_sound E Hok k0 k1 len Hty0 Hty1 Hi0 Hi1). Qed.

Lemma C09_lemma' : exists reveal : vidpf_key -> list bool,
  forall E seed0 seed1 alpha beta k0 k1,
    env_ok E -> length seed0 = 16 -> length seed1 = 16 -> gen E seed0 seed1 alpha beta = Ret (k0, k1) ->
    reveal k0 = alpha /\ reveal k1 = alpha.
Proof. exists (fun k => map (fun cw => snd (cw_bits cw)) (cor_words k)). apply C09_lemma. Qed.
Lemma C09_example_proof :
  match gen (ref_env true true) (ex_seed 3) (ex_seed 50) ex_alpha ex_beta with
  | Ret (k0, _) => map (fun cw => snd (cw_bits cw)) (cor_words k0) = [true; false; true]
  | Panic _ => False
  end.
Proof. vm_compute. reflexivity. Qed.
Lemma C10_example_proof : env_ok (ref_env true true) /\ length (ex_seed 3) = 16 /\ length (ex_seed 50) = 16.
Proof. split; [apply ref_env_ok|split; reflexivity]. Qed.
