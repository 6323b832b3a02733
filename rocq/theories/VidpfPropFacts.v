(** Lemmas in the exact form of the theorems of PropVidpf.v. *)
From Verif Require Import Base BaseFacts Field Util UtilFacts Env Prg PrgFacts Vidpf SpecPrg SpecVidpf VidpfFacts VidpfEvalFacts RefEnv.

Lemma C01_lemma E seed0 seed1 alpha beta k0 k1 path :
  env_ok E -> length seed0 = 16 -> length seed1 = 16 -> gen E seed0 seed1 alpha beta = Ret (k0, k1) ->
  1 <= length path <= length alpha ->
  exists st0 out0 st1 out1 w0 w1,
    eval_loop E k0 (eval_init k0) [] path (length beta) = Ret (st0, bits_to_bitstring path, out0) /\
    eval_loop E k1 (eval_init k1) [] path (length beta) = Ret (st1, bits_to_bitstring path, out1) /\
    nth_error out0 (length path - 1) = Some w0 /\ nth_error out1 (length path - 1) = Some w1 /\
    shares_of w0 w1 (point_value alpha beta path).
Proof.
  intros Hok H0 H1 Hg Hl. pose proof (gen_honest E _ _ _ _ _ _ H0 H1 Hg) as Hh.
  destruct (eval_loop_honest_init E Hok k0 k1 alpha beta Hh path) as (st0 & out0 & st1 & out1 & He0 & He1 & Hv & Ho0 & Ho1 & Hsh); [lia|].
  destruct (nth_error out0 (length path - 1)) as [w0|] eqn:Hw0; [|apply nth_error_None in Hw0; lia].
  destruct (nth_error out1 (length path - 1)) as [w1|] eqn:Hw1; [|apply nth_error_None in Hw1; lia].
  exists st0, out0, st1, out1, w0, w1. split; [assumption|]. split; [assumption|]. split; [assumption|]. split; [assumption|].
  specialize (Hsh _ _ _ Hw0 Hw1). replace (length path - 1 + 1) with (length path) in Hsh by lia. rewrite firstn_all in Hsh. exact Hsh.
Qed.

Lemma C02_lemma E seed0 seed1 alpha beta k0 k1 path st0 bs0 out0 st1 bs1 out1 :
  env_ok E -> length seed0 = 16 -> length seed1 = 16 -> gen E seed0 seed1 alpha beta = Ret (k0, k1) ->
  length path <= length alpha ->
  eval_loop E k0 (eval_init k0) [] path (length beta) = Ret (st0, bs0, out0) ->
  eval_loop E k1 (eval_init k1) [] path (length beta) = Ret (st1, bs1, out1) ->
  es_proof st0 = es_proof st1 /\ length (es_proof st0) = 16.
Proof.
  intros Hok H0 H1 Hg Hl He0' He1'. pose proof (gen_honest E _ _ _ _ _ _ H0 H1 Hg) as Hh.
  destruct (eval_loop_honest_init E Hok k0 k1 alpha beta Hh path Hl) as (? & ? & ? & ? & He0 & He1 & Hv & _).
  rewrite He0' in He0. injection He0 as <- _ <-. rewrite He1' in He1. injection He1 as <- _ <-.
  split; apply Hv.
Qed.

Lemma C03_lemma E seed0 seed1 alpha beta k0 k1 idx pi :
  env_ok E -> length seed0 = 16 -> length seed1 = 16 -> gen E seed0 seed1 alpha beta = Ret (k0, k1) ->
  1 <= length idx <= length alpha -> length pi = 16 ->
  exists out0 lst0 out1 lst1 pi',
    eval E k0 idx pi (length beta) = Ret (out0, lst0, pi') /\
    eval E k1 idx pi (length beta) = Ret (out1, lst1, pi') /\
    length out0 = length idx - 1 /\ length out1 = length idx - 1 /\
    (forall i w0 w1, nth_error out0 i = Some w0 -> nth_error out1 i = Some w1 ->
      shares_of w0 w1 (point_value alpha beta (firstn (i + 1) idx))) /\
    shares_of lst0 lst1 (point_value alpha beta idx).
Proof.
  intros Hok H0 H1 Hg. pose proof (gen_honest E _ _ _ _ _ _ H0 H1 Hg) as Hh.
  apply (eval_honest E Hok k0 k1 alpha beta Hh).
Qed.

Lemma C09_lemma E seed0 seed1 alpha beta k0 k1 :
  env_ok E -> length seed0 = 16 -> length seed1 = 16 -> gen E seed0 seed1 alpha beta = Ret (k0, k1) ->
  map (fun cw => snd (cw_bits cw)) (cor_words k0) = alpha /\
  map (fun cw => snd (cw_bits cw)) (cor_words k1) = alpha.
Proof.
  intros Hok H0 H1 Hg. pose proof (gen_honest E _ _ _ _ _ _ H0 H1 Hg) as Hh.
  destruct (honest_lengths _ Hok _ _ _ _ Hh) as (_ & _ & Hb & _). destruct Hh as (_ & _ & -> & _).
  assert (H : map (fun cw => snd (cw_bits cw)) (cor_words k0) = alpha).
  { rewrite <- (map_map cw_bits snd), Hb, map_map. cbn [snd]. apply map_id. }
  auto.
Qed.

Lemma C10_lemma E seed0 seed1 alpha beta :
  env_ok E -> length seed0 = 16 -> length seed1 = 16 ->
  exists k0 k1, gen E seed0 seed1 alpha beta = Ret (k0, k1) /\
    key_idx k0 = false /\ key_idx k1 = true /\ root_seed k0 = seed0 /\ root_seed k1 = seed1 /\
    cor_words k0 = cor_words k1 /\ cs k0 = cs k1 /\
    length (cor_words k0) = length alpha /\ length (cs k0) = length alpha /\
    (forall cw, In cw (cor_words k0) -> length (cw_word cw) = length beta + 1 /\ length (cw_seed cw) = 16) /\
    (forall c, In c (cs k0) -> length c = 16) /\ domain_size k0 = length alpha.
Proof.
  intros Hok H0 H1. destruct (gen_total E Hok _ _ alpha beta H0 H1) as (k0 & k1 & Hg).
  exists k0, k1. pose proof (gen_honest E _ _ _ _ _ _ H0 H1 Hg) as Hh.
  destruct (honest_lengths _ Hok _ _ _ _ Hh) as (Hl & Hc & Hb & Hw & Hcs).
  split; [exact Hg|]. unfold gen in Hg. bret Hg as [cws css] Hl'. injection Hg as <- <-. cbn in *.
  rewrite Forall_forall in Hw, Hcs. repeat split; auto; apply Hw; assumption.
Qed.

(** concrete instances *)
Definition ex_seed (n : nat) : bytes := map N.of_nat (seq n 16).
Definition ex_alpha : list bool := [true; false; true].
Definition ex_beta : list fld := [of_Z 0; of_Z 1].
Definition fvals (l : list fld) : list Z := map fval l.

Definition fvals_eqb (a b : list fld) : bool := list_eqb Z.eqb (fvals a) (fvals b).

(** reconstruct at a path and compare with the point function; also compare the proofs, and check
    that the first share alone is not the value *)
Definition ex_check (E : env) (k0 k1 : vidpf_key) (path : list bool) : bool :=
  match eval_loop E k0 (eval_init k0) [] path 2, eval_loop E k1 (eval_init k1) [] path 2 with
  | Ret (st0, _, out0), Ret (st1, _, out1) =>
      fvals_eqb (vec_add (last out0 []) (last out1 [])) (point_value ex_alpha ex_beta path) &&
      negb (fvals_eqb (last out0 []) (point_value ex_alpha ex_beta path)) &&
      bytes_eqb (es_proof st0) (es_proof st1)
  | _, _ => false
  end.
Lemma C01_example_proof :
  match gen (ref_env true true) (ex_seed 3) (ex_seed 50) ex_alpha ex_beta with
  | Ret (k0, k1) =>
      forallb (ex_check (ref_env true true) k0 k1)
              [[true; false]; [true; true]; [true; false; true]; [false; false; false]] = true
  | Panic _ => False
  end.
Proof. vm_compute. reflexivity. Qed.

(** eval_tree examples: paths out of order, repeated and nested; then the same with a corrupted key *)
Definition ex_paths : list (list bool) := [[true; false]; [true; false; true]; [false]; [true; false]].
Definition corrupt_word (k : vidpf_key) : vidpf_key :=
  {| key_idx := key_idx k; root_seed := root_seed k; cs := cs k;
     cor_words := match cor_words k with
                  | a :: b :: l => a :: {| cw_seed := cw_seed b; cw_bits := cw_bits b; cw_word := vec_neg (cw_word b) |} :: l
                  | l => l
                  end |}.
Definition ex_trees (E : env) (k0 k1 : vidpf_key) : option (bool * Z * list Z) :=
  match eval_tree E k0 ex_paths 2 [7%N], eval_tree E k1 ex_paths 2 [7%N] with
  | Ret (v0, b0, t0), Ret (v1, b1, t1) => Some (bytes_eqb t0 t1, Z.of_nat (length t0), fvals (vec_add b0 b1))
  | _, _ => None
  end.
Lemma C04_example_proof :
  match gen (ref_env true true) (ex_seed 3) (ex_seed 50) ex_alpha ex_beta with
  | Ret (k0, k1) => ex_trees (ref_env true true) k0 k1 = Some (true, 177%Z, [0; 1]%Z) /\
                    ex_trees (ref_env true true) (corrupt_word k0) (corrupt_word k1) = Some (false, 177%Z, [0; 1]%Z)
  | Panic _ => False
  end.
Proof. vm_compute. split; reflexivity. Qed.
