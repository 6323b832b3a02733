(** Concrete case for C79: a histogram with four buckets (chunks of two), three clients with the buckets 1, 0, 3,
    uploads 0, 1, 2 (spoilt), 2 in batches of three. *)
From Verif Require Import Base BaseFacts Field Util Env Collect Server Driver Modes Histogram Prio3 PolyFacts HistFacts SpecPrg PrgSpecFacts SpecVidpf SpecCollect SpecWhh SpecModes SpecHist SpecPrio3
  Prio3Facts Prio3Run RefEnv ToyEnv ExRun DriverPropFacts WhhExamples ModesExamples HistExamples.

(** a toy environment in which all derived seeds are zero, so that spoilt uploads keep their joint randomness *)
Definition y3 : env :=
  {| dbg := true; x86 := true; aes0 := aes0 tx; blake3 := blake3 tx; xof_bytes := fun _ _ _ n => repeat 0%N n; xof_field := xof_field tx; clog2f := clog2f tx;
     flp_joint_rand_len := flp_joint_rand_len tx; flp_query_rand_len := flp_query_rand_len tx; flp_prove_rand_len := flp_prove_rand_len tx;
     flp_prove := flp_prove tx; flp_query := flp_query tx; flp_decide := flp_decide tx;
     p3_prep_init := p3_prep_init tx; p3_decode_share := p3_decode_share tx; p3_msg := p3_msg tx; p3_next := p3_next tx |}.
Lemma y3_ok : env_ok y3.
Proof. destruct tx_ok as (H1 & H2 & H3 & H4 & H5 & H6). split; [exact H1|]. split; [exact H2|]. split; [intros; apply repeat_length|]. split; [exact H4|]. split; [exact H5|exact H6]. Qed.
Definition y_client (i bucket : nat) : pm_client :=
  {| pc_nonce := repeat (N.of_nat i) 16; pc_bucket := bucket; pc_rand := map (fun k => N.of_nat (k * 3 + i)) (seq 0 80) |}.
Definition y_clients : list pm_client := [y_client 1 1; y_client 2 0; y_client 3 3].
Definition y_choices : list choice := honest_choices [0; 1] ++ [bad_flp 2] ++ honest_choices [2].
Definition y_cfg : config := {| cfg_bits := None; cfg_hist := 4; cfg_add_batch := 2; cfg_query_batch := 3; cfg_thr := 1 |}.

Definition y_fair (E : env) (cl : pm_client) : bool :=
  (pc_bucket cl <? 4) && (length (pc_rand cl) =? 80) && negb (feqb (fpow (p3_point E ex_vk cl) (2 ^ wire_log (chunk_length_plain 4) 4)) fone).
Lemma y_fair_ok E : forallb (y_fair E) y_clients = true -> Forall (p3_fair E 4 ex_vk) y_clients.
Proof.
  rewrite forallb_forall, Forall_forall. intros H cl Hcl. specialize (H cl Hcl). unfold y_fair in H. apply andb_true_iff in H. destruct H as [H Hd]. apply andb_true_iff in H. destruct H as [Hb Hr].
  split; [apply Nat.ltb_lt; exact Hb|]. split; [apply Nat.eqb_eq; exact Hr|]. unfold on_domain. intros Hz. apply feqb_eq in Hz. rewrite Hz in Hd. discriminate Hd.
Qed.
Lemma y_fair_all : forallb (y_fair y3) y_clients = true.
Proof. vm_cast_no_check (eq_refl true). Qed.
Definition y_caught (cl : pm_client) : bool :=
  negb (feqb (nth 1 (p3_joint y3 4 cl) fzero) fzero) && negb (feqb (sum_f (p3_wrong_x y3 4 cl)) (sum_f (p3_helper_x y3 4 cl))).
Lemma y_caught_all : y_caught (y_client 3 3) = true.
Proof. vm_cast_no_check (eq_refl true). Qed.
Lemma y_caught_ok cl r : pc_bucket cl < 4 -> p3_wrong_joint y3 4 cl = p3_joint y3 4 cl -> y_caught cl = true -> ~ p3_missed y3 4 cl r.
Proof.
  intros Hb He Hc Hm. pose proof (missed_sum y3 y3_ok 4 eq_refl cl r Hb He Hm) as H. unfold y_caught in Hc. revert Hc H.
  generalize (nth 1 (p3_joint y3 4 cl) fzero) (sum_f (p3_wrong_x y3 4 cl)) (sum_f (p3_helper_x y3 4 cl)). intros j a b Hc H.
  apply andb_true_iff in Hc. destruct Hc as [H1 H2]. destruct H as [H|H]; apply feqb_eq in H; [rewrite H in H1; discriminate H1|rewrite H in H2; discriminate H2].
Qed.
Lemma y_not_missed : ~ p3_missed y3 4 (y_client 3 3) (p3_point y3 ex_vk (y_client 3 3)).
Proof. apply y_caught_ok; [cbn; lia|reflexivity|exact y_caught_all]. Qed.
Lemma y_choices_fair : Forall (p3_fair_choice y3 4 ex_vk y_clients) y_choices.
Proof.
  assert (Hh : forall i, i < 3 -> p3_fair_choice y3 4 ex_vk y_clients (nth 0 (honest_choices [i]) (bad_flp 0))) by (intros i Hi; split; [exact Hi|discriminate]).
  constructor; [apply (Hh 0); lia|]. constructor; [apply (Hh 1); lia|]. constructor; [|constructor; [apply (Hh 2); lia|constructor]].
  split; [cbn; lia|]. intros _ cl Hcl. injection Hcl as <-. exact y_not_missed.
Qed.
Definition y_result (o : outcome (server * server * list (list Z * Z))) : option (list (list Z * Z)) := match o with Ret (_, _, ts) => Some ts | Panic _ => None end.
Lemma y_run : y_result (main_pm 20 (p3_env y3) (p3_shard y3) y_cfg y_clients ex_vk y_choices (server_start 0 None 4) (server_start 1 None 4)) =
  Some [([1; 1; 0; 0], 1); ([0; 0; 0; 1], 0)]%Z.
Proof.
  destruct (p3_main y3 y3_ok 4 eq_refl ex_vk y_clients y_choices 20 y_cfg (server_start 0 None 4) (server_start 1 None 4) (y_fair_ok y3 y_fair_all) y_choices_fair) as (t0 & t1 & H);
    [reflexivity|cbn; lia|cbn; lia|discriminate|cbn; lia|reflexivity|reflexivity|reflexivity|reflexivity|reflexivity|]. rewrite H. reflexivity.
Qed.
(** with the toy environment itself, where spoilt uploads also change the joint randomness: uploads 0 and 2 (spoilt);
    by computation only, since the checker would take long over it *)
Definition y_check (E : env) : bool :=
  match y_result (main_pm 20 (p3_env E) (p3_shard E) y_cfg y_clients ex_vk (honest_choices [0] ++ [bad_flp 2]) (server_start 0 None 4) (server_start 1 None 4)) with
  | Some ts => list_eqb (fun a b => list_eqb Z.eqb (fst a) (fst b) && (snd a =? snd b)%Z) ts [([0; 1; 0; 0], 1)]%Z
  | None => false end.
Succeed Definition by_computation := (eq_refl true <: y_check tx && forallb (y_fair tx) y_clients = true).
(** the spoilt upload of client 2: the products of the range check do not vanish *)
Lemma y_few : exists k, k < ncalls (chunk_length_plain 4) 4 /\
  p3_chunk (chunk_length_plain 4) (p3_leader_x y3 4 (y_client 3 3)) (p3_wrong_x y3 4 (y_client 3 3)) (nth 0 (p3_joint y3 4 (y_client 3 3)) fzero) (nth 0 (p3_wrong_joint y3 4 (y_client 3 3)) fzero) k <> fzero.
Proof.
  exists 0. split; [cbn; lia|]. intros H. apply feqb_eq in H. revert H.
  assert (Hc : feqb (p3_chunk (chunk_length_plain 4) (p3_leader_x y3 4 (y_client 3 3)) (p3_wrong_x y3 4 (y_client 3 3)) (nth 0 (p3_joint y3 4 (y_client 3 3)) fzero) (nth 0 (p3_wrong_joint y3 4 (y_client 3 3)) fzero) 0) fzero = false) by (vm_cast_no_check (eq_refl false)).
  rewrite Hc. discriminate.
Qed.

(** the report of client 0 finishes at both aggregators *)
Lemma pair_second (a b c x y z : bytes) : Some (a, (b, c)) = Some (x, (y, z)) -> y = b.
Proof. congruence. Qed.
Lemma y_bytes pub i0 i1 : p3_shard y3 4 1 (pc_nonce (y_client 1 1)) (pc_rand (y_client 1 1)) = Some (pub, (i0, i1)) -> is_bytes i0.
Proof.
  destruct (shard_spec y3 y3_ok 4 eq_refl (y_client 1 1) ltac:(cbn; lia) eq_refl) as (proof & _ & _ & Hs). change (pc_bucket (y_client 1 1)) with 1 in Hs. rewrite Hs. clear Hs. intros H.
  rewrite (pair_second _ _ _ _ _ _ H). clear H.
  assert (He : forall l, is_bytes (enc_vec l)) by (intros l; induction l as [|a l IH]; [constructor|apply Forall_app; split; [apply le_bytes_range|exact IH]]).
  apply Forall_app. split; [apply He|]. apply Forall_app. split; [apply He|]. repeat constructor.
Qed.
Lemma y_finished : exists pub i0 i1 x0 x1, p3_shard y3 4 1 (pc_nonce (y_client 1 1)) (pc_rand (y_client 1 1)) = Some (pub, (i0, i1)) /\ is_bytes i0 /\ p3_finished y3 4 ex_vk (pc_nonce (y_client 1 1)) pub pub i0 i1 x0 x1.
Proof.
  assert (Hf : p3_fair y3 4 ex_vk (y_client 1 1)) by (pose proof (y_fair_ok y3 y_fair_all) as H; inversion H; assumption).
  destruct (honest_run y3 y3_ok 4 eq_refl ex_vk (y_client 1 1) Hf) as (pub & i0 & i1 & Hs & _ & Hr).
  destruct Hr as (n & pb & j0 & n' & pb' & j1 & st0 & sh0 & st1 & sh1 & E0 & E1 & I0 & I1 & D0 & D1 & m & o0 & o1 & M & N0 & N1 & _).
  injection E0 as <- <- <-. injection E1 as <- <- <-. exists pub, i0, i1, o0, o1. split; [exact Hs|]. split; [exact (y_bytes _ _ _ Hs)|]. exists st0, sh0, st1, sh1, m. auto.
Qed.
