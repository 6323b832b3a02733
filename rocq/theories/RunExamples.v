(** Concrete cases for the properties of PropRun. *)
From Verif Require Import Base BaseFacts Field Util Env Prg Vidpf Merkle Collect Server Driver SpecVidpf SpecTree SpecCollect SpecServer SpecLevel SpecWhh SpecSearch SpecLast SpecRun
  CollectInv RunFacts WhhFacts RefEnv ToyEnv ExRun DriverPropFacts RefuteExamples WhhExamples SearchExamples.

(** crashes of complete runs at the first level *)
Lemma run_crash fuel E cfg len bits vk R s0 s1 :
  env_ok E -> well_formed_pairs bits R -> flp_flags E len bits vk R -> hashes_fine E len 0 [[]] R ->
  uploaded true len bits vk (map (share_of true) R) s0 -> uploaded false len bits vk (map (share_of false) R) s1 ->
  cfg_hist cfg = len -> cfg_bits cfg = Some bits -> 2 <= bits -> 0 < cfg_query_batch cfg -> length R + 2 <= fuel ->
  remaining R = [] \/ bad_ranks E len 0 [[]] R <> [] /\ Nat.log2_up (length (remaining R)) < Nat.log2_up (length R) ->
  is_ret (run_whh fuel E cfg s0 s1 (length R)) = false.
Proof.
  intros Hok Hwf Hflags Hfine U0 U1 Hcfg Hcb Hb Hbatch Hf Hc.
  assert (He : exists k, level_effect E len (threshold cfg) 0 [[]] R = Panic k).
  { unfold level_effect. cbn [length Nat.eqb orb]. destruct Hc as [->|[Hbad Hlog]]; [eexists; reflexivity|].
    destruct (length (remaining R) =? 0); [eexists; reflexivity|]. destruct (bad_ranks E len 0 [[]] R); [contradiction|].
    apply Nat.ltb_lt in Hlog. rewrite Hlog. eexists; reflexivity. }
  destruct He as (k & He). destruct (run_exact fuel E cfg len bits vk R s0 s1) as (t0 & t1 & Hr); try assumption; [|lia|].
  - destruct (bits - 1) as [|n] eqn:Hn; [lia|]. cbn [fine_levels]. rewrite He. split; [intros _; exact Hfine|exact I].
  - rewrite Hr. unfold run_effect. destruct (bits - 1) as [|n] eqn:Hn; [lia|]. cbn [levels_effect]. rewrite He. reflexivity.
Qed.

(** *** the cases: uploads as in SearchExamples, with the outcome of the FLP check *)
Definition r_pairs (us : list (nat * kind * bool)) : list pair := map (fun u => (snd u, (x_share 0 (fst u), x_share 1 (fst u)))) us.
Definition r_server (id : Z) (rs : list report_share) : server := fst (handle_all tx (server_start id (Some 3) 2) [QReset ex_vk 2; QAddReportShares rs]).
Lemma r_uploaded (first : bool) rs : uploaded first 2 3 ex_vk rs (r_server (if first then 0%Z else 1%Z) rs).
Proof. destruct first; unfold uploaded, r_server; cbn [handle_all handle server_start]; cbn; rewrite add_reports_spec; do 5 (split; [reflexivity|]); reflexivity. Qed.
Definition r_start (us : list (nat * kind * bool)) : server * server :=
  (r_server 0 (map (share_of true) (r_pairs us)), r_server 1 (map (share_of false) (r_pairs us))).
Definition r_result (us : list (nat * kind * bool)) (thr : Z) : option (list (list bool * list Z)) :=
  match run_whh 20 tx (w_cfg thr) (fst (r_start us)) (snd (r_start us)) (length us) with
  | Ret (_, _, l) => Some (map (fun r => (res_path r, map fval (res_value r))) l)
  | Panic _ => None
  end.
Definition r_setting (us : list (nat * kind * bool)) (thr : Z) : Prop :=
  well_formed_pairs 3 (r_pairs us) /\ flp_flags tx 2 3 ex_vk (r_pairs us) /\ fine_levels tx 2 thr 2 0 [[]] (r_pairs us) /\
  uploaded true 2 3 ex_vk (map (share_of true) (r_pairs us)) (fst (r_start us)) /\ uploaded false 2 3 ex_vk (map (share_of false) (r_pairs us)) (snd (r_start us)).
Fixpoint finelb (thr : Z) (n level : nat) (paths : list (list bool)) (R : list pair) : bool :=
  match n with
  | O => true
  | S n' => (match bad_ranks tx 2 level paths R with [] => true | _ => fineb level paths R end) &&
            match level_effect tx 2 thr level paths R with Ret (paths', R') => finelb thr n' (S level) paths' R' | Panic _ => true end
  end.
Lemma finelb_ok thr n : forall level paths R, finelb thr n level paths R = true -> fine_levels tx 2 thr n level paths R.
Proof.
  induction n as [|n IH]; intros level paths R H; [exact I|]. cbn [finelb fine_levels] in *. apply andb_prop in H. destruct H as [H1 H2]. split.
  - intros Hne. destruct (bad_ranks tx 2 level paths R); [contradiction|]. apply fineb_ok. exact H1.
  - destruct (level_effect tx 2 thr level paths R) as [[p r]|]; [apply IH; exact H2|exact I].
Qed.
Definition r_verdictb (x : pair) : bool := match verdict_of tx 2 ex_vk (share_of true x) (share_of false x) with Some b => Bool.eqb b (fst x) | None => false end.
Definition r_settingb (us : list (nat * kind * bool)) (thr : Z) : bool :=
  let R := r_pairs us in forallb (fun x => wfb 3 (share_of true x) && wfb 3 (share_of false x) && r_verdictb x) R && finelb thr 2 0 [[]] R.
Lemma r_setting_ok us thr : r_settingb us thr = true -> r_setting us thr.
Proof.
  intros H. unfold r_settingb in H. apply andb_prop in H. destruct H as [H1 H2]. rewrite forallb_forall in H1. split; [|split; [|split; [apply finelb_ok; exact H2|]]].
  - apply Forall_forall. intros x Hx. specialize (H1 x Hx). rewrite !andb_true_iff in H1. destruct H1 as [[A B] C]. split; apply wfb_ok; assumption.
  - unfold flp_flags. cbn [Nat.eqb]. apply Forall_forall. intros x Hx. specialize (H1 x Hx). rewrite !andb_true_iff in H1. destruct H1 as [[A B] C].
    apply verdict_of_ok. unfold r_verdictb in C. destruct (verdict_of tx 2 ex_vk (share_of true x) (share_of false x)) as [b|]; [|discriminate]. apply eqb_prop in C. subst. reflexivity.
  - split; [apply (r_uploaded true)|apply (r_uploaded false)].
Qed.
(** two honest reports, one inconsistent at the second level, one with a spoilt proof; the run completes *)
Definition r_mixed : list (nat * kind * bool) := [(1, Good, true); (0, BadWord, true); (0, BadProof, false); (2, Good, true)].
(** three reports, one rejected, one inconsistent at the first level *)
Definition r_crash : list (nat * kind * bool) := [(0, BadProof, false); (1, Good, true); (2, BadHash 0, true)].
Lemma r_mixed_ok : r_setting r_mixed 1 /\ r_result r_mixed 1 = Some [([false; false; true], [0; 1; 1]); ([true; false; true], [1; 0; 1])]%Z.
Proof. split; [apply r_setting_ok; vm_cast_no_check (eq_refl true)|]. apply zs_eqb_ok. vm_cast_no_check (eq_refl true). Qed.
Lemma r_crash_ok : r_setting r_crash 1 /\ hashes_fine tx 2 0 [[]] (r_pairs r_crash) /\ bad_ranks tx 2 0 [[]] (r_pairs r_crash) = [1] /\
  length (remaining (r_pairs r_crash)) = 2 /\ r_result r_crash 1 = None.
Proof.
  split; [apply r_setting_ok; vm_cast_no_check (eq_refl true)|]. split; [apply fineb_ok; vm_cast_no_check (eq_refl true)|].
  split; [apply (list_eqb_ok Nat.eqb); [intros x y; apply Nat.eqb_eq|]; vm_cast_no_check (eq_refl true)|].
  split; [reflexivity|]. apply zs_eqb_ok. vm_cast_no_check (eq_refl true).
Qed.
