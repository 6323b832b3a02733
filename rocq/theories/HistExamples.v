(** Concrete cases for the properties of PropHist. *)
From Verif Require Import Base BaseFacts Field Util Env Prg Vidpf Merkle Collect Server Driver PrimeFacts Histogram PolyFacts HistFacts HistRun HistForge
  SpecVidpf SpecCollect SpecServer SpecLevel SpecWhh SpecHist FlpFacts CollectInv ServerFacts DriverFacts WhhFacts3 WhhMain RefEnv ToyEnv ExRun DriverPropFacts RefuteExamples WhhExamples Modes MetricsExamples ModesExamples.
From Coq Require Import Permutation.

Definition f (n : N) : fld := of_N n.
(** shares of a vector: the first counts up, the second is the difference *)
Definition share_a (v : list fld) : list fld := map of_nat (seq 3 (length v)).
Definition share_b (v : list fld) : list fld := zip_sub v (share_a v).
(** the outcome for input x, proof and randomness *)
Definition verdict (c len : nat) (x proof : list fld) (j0 j1 r : fld) : option bool :=
  match hist_query c len (share_a x) (share_a proof) [r] [j0; j1] 2, hist_query c len (share_b x) (share_b proof) [r] [j0; j1] 2 with
  | Some v0, Some v1 => hist_decide c (add_shares v0 v1)
  | _, _ => None
  end.
Definition proof_for (c len : nat) (x : list fld) (j0 j1 : fld) : list fld :=
  match hist_prove c len x (map of_nat (seq 5 (2 * c))) [j0; j1] with Some p => p | None => [] end.
Definition spoil (p : list fld) : list fld := match p with c :: t => fadd c (f 1337) :: t | [] => [] end.
Definition is_b (o : option bool) (b : bool) : bool := match o with Some b' => Bool.eqb b b' | None => false end.
Definition is_none (o : option bool) : bool := match o with None => true | Some _ => false end.
Definition flds_eqb (a b : list fld) : bool := (length a =? length b) && forallb (fun xy => feqb (fst xy) (snd xy)) (combine a b).

(** three buckets: two calls, polynomials of four coefficients, proofs of 4 + 7 entries *)
Lemma h_sizes : ncalls 2 3 = 2 /\ 2 ^ wire_log 2 3 = 4 /\ proof_len 2 3 = 11.
Proof. repeat split. Qed.
(** unit vectors are accepted; (1, 1, 0) with the prover's proof is not, nor is a spoilt proof or a query
    point of order four *)
Lemma shared v : shares_of (share_a v) (share_b v) v.
Proof. apply zip_sub_shares. unfold share_a. rewrite map_length, seq_length. reflexivity. Qed.
Lemma verdict_of_decides c len x p j0 j1 r b : decides c len (share_a x) (share_b x) (share_a p) (share_b p) [j0; j1] [r] b -> is_b (verdict c len x p j0 j1 r) b = true.
Proof. intros (v0 & v1 & H0 & H1 & H2). unfold verdict. rewrite H0, H1, H2. apply eqb_reflx. Qed.
Lemma proof_for_eq c len x j0 j1 : length x = len -> hist_prove c len x (map of_nat (seq 5 (2 * c))) [j0; j1] = Some (proof_for c len x j0 j1).
Proof.
  intros Hx. unfold proof_for. destruct (proj2 (prover_total c len x (map of_nat (seq 5 (2 * c))) [j0; j1])) as (p & ->); [|reflexivity].
  rewrite map_length, seq_length. auto.
Qed.
Lemma eleven : ~ on_domain 2 3 (f 11).
Proof. intros H. apply (f_equal fval) in H. vm_compute in H. discriminate H. Qed.
(** the prover's proof for any input *)
Lemma h_checked x j0 j1 : length x = 3 -> is_b (verdict 2 3 x (proof_for 2 3 x j0 j1) j0 j1 (f 11)) (feqb (checks 3 x j0 j1) fzero) = true.
Proof.
  intros Hx. apply verdict_of_decides. apply (honest_checks 2 3 x (map of_nat (seq 5 (2 * 2))) j0 j1 (f 11) (proof_for 2 3 x j0 j1)); [lia|reflexivity|apply proof_for_eq; exact Hx|exact eleven|apply shared|apply shared].
Qed.
Lemma starts_with c len x a t jr p : hist_prove c len x (a :: t) jr = Some p -> exists a t, p = a :: t.
Proof.
  unfold hist_prove. destruct (_ && _); [|discriminate]. cbv zeta. intros H.
  set (g := par_poly _ _) in H. clearbody g. injection H as <-. cbn [app]. eauto.
Qed.
Definition h_spoilt : option bool := verdict 2 3 (one_hot 3 1) (spoil (proof_for 2 3 (one_hot 3 1) (f 9) (f 10))) (f 9) (f 10) (f 11).
Lemma h_spoilt_no : is_b h_spoilt false = true.
Proof.
  apply verdict_of_decides. pose proof (proof_for_eq 2 3 (one_hot 3 1) (f 9) (f 10) eq_refl) as Hp.
  set (p := proof_for 2 3 (one_hot 3 1) (f 9) (f 10)) in *. pose proof (starts_with 2 3 _ (of_nat 5) (map of_nat (seq 6 3)) _ _ Hp) as Hc.
  destruct Hc as (a & t & Ep). set (w := wire_poly 2 3 (map of_nat (seq 5 (2 * 2))) (one_hot 3 1) fzero 1).
  assert (Hw : second_wire 2 3 (map of_nat (seq 5 (2 * 2))) (one_hot 3 1) w) by (apply second_wire_exists; [lia|reflexivity]).
  assert (Hz : feqb (poly_eval w (f 11)) fzero = false) by (vm_cast_no_check (eq_refl false)). rewrite <- Hz.
  apply (spoilt 2 3 ltac:(lia) eq_refl (one_hot 3 1) (map of_nat (seq 5 (2 * 2))) (f 9) (f 10) (f 11) p (f 1337) w _ _ _ _ (fadd a (f 1337) :: t)).
  - apply one_hot_unit. lia.
  - exact Hp.
  - exact eleven.
  - intros H. apply (f_equal fval) in H. discriminate H.
  - exact Hw.
  - apply shared.
  - rewrite Ep. apply shared.
  - exists a, t. auto.
Qed.
Lemma h_point x p : is_none (verdict 2 3 x p (f 9) (f 10) (root 2)) = true.
Proof.
  unfold verdict. rewrite !query_eq. assert (H : feqb (fpow (root 2) (2 ^ wire_log 2 3)) fone = true) by (vm_cast_no_check (eq_refl true)). rewrite H.
  destruct (_ && _); reflexivity.
Qed.
Lemma h_verdicts :
  (is_b (verdict 2 3 (one_hot 3 1) (proof_for 2 3 (one_hot 3 1) (f 9) (f 10)) (f 9) (f 10) (f 11)) true &&
   is_b (verdict 2 3 [f 1; f 1; f 0] (proof_for 2 3 [f 1; f 1; f 0] (f 9) (f 10)) (f 9) (f 10) (f 11)) false &&
   is_b h_spoilt false &&
   is_none (verdict 2 3 (one_hot 3 1) (proof_for 2 3 (one_hot 3 1) (f 9) (f 10)) (f 9) (f 10) (root 2))) = true.
Proof.
  rewrite h_spoilt_no, h_point. pose proof (h_checked (one_hot 3 1) (f 9) (f 10) eq_refl) as H0. pose proof (h_checked [f 1; f 1; f 0] (f 9) (f 10) eq_refl) as H1.
  assert (C0 : feqb (checks 3 (one_hot 3 1) (f 9) (f 10)) fzero = true) by (vm_cast_no_check (eq_refl true)).
  assert (C1 : feqb (checks 3 [f 1; f 1; f 0] (f 9) (f 10)) fzero = false) by (vm_cast_no_check (eq_refl false)).
  rewrite C0 in H0. rewrite C1 in H1. rewrite H0, H1. reflexivity.
Qed.
(** (1, 1, 0) escapes the checks for j1 = 0 *)
Lemma h_blind : is_b (verdict 2 3 [f 1; f 1; f 0] (proof_for 2 3 [f 1; f 1; f 0] (f 9) fzero) (f 9) fzero (f 11)) true = true.
Proof.
  pose proof (h_checked [f 1; f 1; f 0] (f 9) fzero eq_refl) as H. assert (C : feqb (checks 3 [f 1; f 1; f 0] (f 9) fzero) fzero = true) by (vm_cast_no_check (eq_refl true)).
  rewrite C in H. exact H.
Qed.
(** the same by computation; not recorded, since the checker would take long over it *)
Succeed Definition by_computation := (eq_refl true <:
  (is_b (verdict 2 3 (one_hot 3 1) (proof_for 2 3 (one_hot 3 1) (f 9) (f 10)) (f 9) (f 10) (f 11)) true && is_b h_spoilt false &&
   is_b (verdict 2 3 [f 1; f 1; f 0] (proof_for 2 3 [f 1; f 1; f 0] (f 9) (f 10)) (f 9) (f 10) (f 11)) false) = true).

Lemma tx_ok : env_ok tx.
Proof. exact (toy_env_ok true true). Qed.
(** *** the run of C22 with this proof system *)
Definition h_client (i : nat) (alpha : list bool) (bucket : nat) : client :=
  let cl := ex_client i alpha bucket in
  {| cl_nonce := cl_nonce cl; cl_bucket := bucket; cl_alpha := alpha; cl_seed0 := cl_seed0 cl; cl_seed1 := cl_seed1 cl;
     cl_prove_rand := [f 5; f 6; f 7; f 8]; cl_proof_rand := cl_proof_rand cl |}.
Definition h_clients : list client := [h_client 0 [true; false; true] 1; h_client 1 [true; false; true] 0; h_client 2 [false; false; true] 1].
Definition h_reports : list plaintext_report := match mapM (gen_report (with_hist tx) 2) h_clients with Ret l => l | Panic _ => [] end.
Lemma h_reports_ret : mapM (gen_report (with_hist tx) 2) h_clients = Ret h_reports.
Proof.
  unfold h_reports. assert (H : match mapM (gen_report (with_hist tx) 2) h_clients with Ret _ => true | Panic _ => false end = true) by (vm_cast_no_check (eq_refl true)).
  destruct (mapM (gen_report (with_hist tx) 2) h_clients); [reflexivity|discriminate].
Qed.
Definition off_domain (vk : bytes) (cl : client) : bool := negb (feqb (fpow (query_point tx 2 vk cl) (2 ^ wire_log chunk 2)) fone).
Lemma h_clients_fair : Forall (fair_client tx 2 3 ex_vk) h_clients.
Proof.
  assert (H : forallb (off_domain ex_vk) h_clients = true) by (vm_cast_no_check (eq_refl true)). rewrite forallb_forall in H.
  apply Forall_forall. intros cl Hcl. pose proof (H cl Hcl) as Hd.
  assert (Hr : ~ on_domain chunk 2 (query_point tx 2 ex_vk cl)). { unfold on_domain. intros Hz. apply feqb_eq in Hz. unfold off_domain in Hd. rewrite Hz in Hd. discriminate Hd. }
  destruct Hcl as [<-|[<-|[<-|[]]]]; (split; [reflexivity|split; [reflexivity|split; [reflexivity|exact Hr]]]).
Qed.
Lemma h_choices_fair : Forall (fair_choice tx 2 ex_vk h_clients) w_choices.
Proof.
  assert (Hg : forall ch, ch_idx ch <? 3 = true -> counts ch = true -> fair_choice tx 2 ex_vk h_clients ch).
  { intros ch Hi Hc. split; [apply Nat.ltb_lt; exact Hi|]. rewrite Hc. discriminate. }
  unfold w_choices. cbn [honest_choices map app].
  apply Forall_cons; [apply Hg; reflexivity|]. apply Forall_cons; [apply Hg; reflexivity|]. apply Forall_cons; [apply Hg; reflexivity|].
  apply Forall_cons; [apply Hg; reflexivity|]. apply Forall_cons; [|apply Forall_nil].
  split; [apply Nat.ltb_lt; reflexivity|]. intros _ cl w Hcl Hw Hz.
  assert (Hcl2 : cl = h_client 1 [true; false; true] 0) by (cbn in Hcl; injection Hcl as <-; reflexivity). subst cl. clear Hcl.
  rewrite (second_wire_eq chunk 2 Hchunk eq_refl _ _ _ _ Hw fzero) in Hz. apply feqb_eq in Hz. revert Hz. apply not_true_iff_false. vm_cast_no_check (eq_refl false).
Qed.
Definition vals (r : result) : list bool * list Z := (res_path r, map fval (res_value r)).
Definition vals_eqb (a b : list (list bool * list Z)) : bool :=
  (length a =? length b) && forallb (fun xy => (if list_eq_dec Bool.bool_dec (fst (fst xy)) (fst (snd xy)) then true else false) && (if list_eq_dec Z.eq_dec (snd (fst xy)) (snd (snd xy)) then true else false)) (combine a b).
Definition result_is (o : outcome (server * server * list result)) (l : list (list bool * list Z)) : bool :=
  match o with Ret (_, _, rs) => vals_eqb (map vals rs) l | Panic _ => false end.
Lemma w_running : running 0 3 (fst w_servers) /\ exists id, id <> 0%Z /\ running id 3 (snd w_servers).
Proof. split; [repeat split|]. exists 1%Z. split; [discriminate|repeat split]. Qed.
Lemma h_run : result_is (main_whh 20 (with_hist tx) (w_cfg 2) h_clients ex_vk w_choices (fst w_servers) (snd w_servers)) [([true; false; true], [1; 2; 3])]%Z = true.
Proof.
  destruct (hist_main tx tx_ok 2 eq_refl 3 ex_vk h_clients h_reports w_choices 20 (w_cfg 2) (fst w_servers) (snd w_servers)) as (t0 & t1 & ->);
    [lia|exact h_reports_ret|exact h_clients_fair|exact h_choices_fair|reflexivity|reflexivity|cbn; lia|cbn; lia|discriminate|cbn; lia|reflexivity|apply w_running|apply w_running|reflexivity|discriminate| |].
  - intros l Hl Hb. assert (Hl1 : l = 1) by lia. subst l. exists [true]. split; reflexivity.
  - cbn [result_is]. vm_cast_no_check (eq_refl true).
Qed.
(** the tables of C52_example with this proof system, up to the order of the attributes *)
Definition tables_of (o : outcome (server * server * list (list (list bool * list fld)))) : option (list (list (list bool * list fld))) :=
  match o with Ret (_, _, ts) => Some ts | Panic _ => None end.
Definition h_tables : option (list (list (list bool * list fld))) :=
  tables_of (main_abm 20 (with_hist tx) (cfg2 2 2 1) h_clients ex_vk w_choices [1; 2; 1] (@rev (list bool)) (fst w_servers) (snd w_servers)).
Lemma two_attrs (attrs : list (list bool)) a b : a <> b -> NoDup attrs -> (forall x, In x attrs <-> x = a \/ x = b) -> attrs = [a; b] \/ attrs = [b; a].
Proof.
  intros Hab Hn H. assert (Hp : Permutation attrs [a; b]).
  { apply NoDup_Permutation; [exact Hn| |]. constructor; [intros [Hx|[]]; congruence|constructor; [intros []|constructor]]. intros x. rewrite H. cbn. intuition congruence. }
  apply Permutation_sym, Permutation_length_2_inv in Hp. intuition congruence.
Qed.
Lemma h_tables_ok :
  abm_eqb h_tables [[([true; false; true], [1; 1]); ([false; false; true], [0; 0])];
                    [([true; false; true], [1; 2]); ([false; false; true], [0; 1])];
                    [([true; false; true], [1; 2]); ([false; false; true], [0; 1])]]%Z ||
  abm_eqb h_tables [[([false; false; true], [0; 0]); ([true; false; true], [1; 1])];
                    [([false; false; true], [0; 1]); ([true; false; true], [1; 2])];
                    [([false; false; true], [0; 1]); ([true; false; true], [1; 2])]]%Z = true.
Proof.
  destruct (hist_tables tx tx_ok 2 eq_refl 3 ex_vk h_clients h_reports w_choices [1; 2; 1] (@rev (list bool)) 20 (cfg2 2 2 1) (fst w_servers) (snd w_servers)) as (t0 & t1 & attrs & Hm & Hn & Hin);
    [lia|exact h_reports_ret|exact h_clients_fair|exact h_choices_fair|reflexivity|cbn; lia|cbn; lia|discriminate|cbn; lia|apply w_running|apply w_running| | |].
  - intros x Hx. cbn in Hx |- *. lia.
  - intros l. apply Permutation_sym, Permutation_rev.
  - unfold h_tables. rewrite Hm. cbn [tables_of].
    assert (Ha : attrs = [[true; false; true]; [false; false; true]] \/ attrs = [[false; false; true]; [true; false; true]]).
    { apply two_attrs; [discriminate|exact Hn|]. intros x. rewrite Hin. split.
      - intros (i & cl & Hi & Hc & ->). destruct Hi as [<-|[<-|[<-|[]]]]; cbn in Hc; injection Hc as <-; auto.
      - intros [-> | ->]; [exists 1|exists 2]; eexists; (split; [cbn; auto|split; reflexivity]). }
    destruct Ha as [-> | ->]; [|apply orb_true_iff; right]; vm_cast_no_check (eq_refl true).
Qed.

(** *** a forged report: client 1 puts t = -j1/j0 into bucket 0 *)
Definition g_cl : client := h_client 1 [true; false; true] 0.
Definition g_j (n : nat) : fld := nth n (prover_joint_rand (with_hist tx) 2 g_cl) fzero.
Definition g_t : fld := fneg (fmul (g_j 1) (finv (g_j 0))).
Definition g_x : list fld := single 2 0 g_t.
Definition nonzero (x : fld) : bool := negb (feqb x fzero).
(** the entries of the three honest reports *)
Definition h_entries : list entry := map (entry_of 2 h_clients h_reports) (honest_choices [0; 1; 2]).
(** a run with one more report in front, threshold 2 *)
Definition g_server (id : Z) (rs : list report_share) : server := fst (handle_all (with_hist tx) (server_start id (Some 3) 2) [QReset ex_vk 2; QAddReportShares rs]).
Definition g_run (e : entry) : outcome (server * server * list result) :=
  run_whh 20 (with_hist tx) (w_cfg 2) (g_server 0 (map e_r0 (e :: h_entries))) (g_server 1 (map e_r1 (e :: h_entries))) (S (length h_entries)).
Lemma g_uploaded (first : bool) rs : uploaded first 2 3 ex_vk rs (g_server (if first then 0%Z else 1%Z) rs).
Proof. destruct first; unfold uploaded, g_server; cbn [handle_all handle server_start]; cbn; rewrite add_reports_spec; do 5 (split; [reflexivity|]); reflexivity. Qed.
Lemma h_entries_ok : Forall (good_entry (with_hist tx) 2 3) h_entries /\ Forall (fun e => report_verdict (with_hist tx) 2 ex_vk (e_r0 e) (e_r1 e) (e_ok e)) h_entries.
Proof.
  assert (Hf : Forall (fair_choice tx 2 ex_vk h_clients) (honest_choices [0; 1; 2])).
  { apply Forall_forall. intros ch Hch. split; [|].
    - destruct Hch as [<-|[<-|[<-|[]]]]; cbn; lia.
    - intros Hc. destruct Hch as [<-|[<-|[<-|[]]]]; discriminate Hc. }
  pose proof (fair_all tx tx_ok 2 eq_refl 3 ex_vk h_clients h_reports h_reports_ret h_clients_fair) as Hg.
  pose proof (fair_choice_good tx tx_ok 2 eq_refl 3 ex_vk h_clients h_reports (honest_choices [0; 1; 2]) ltac:(lia) h_reports_ret h_clients_fair Hf) as Hc.
  split.
  - apply (entries_good (with_hist tx) (with_hist_ok tx tx_ok) 2 3 ex_vk h_clients h_reports); try assumption; try lia; exact h_reports_ret.
  - apply (entries_verdict (with_hist tx) (with_hist_ok tx tx_ok) 2 3 ex_vk h_clients h_reports); try assumption; try lia; exact h_reports_ret.
Qed.
Lemma g_cancel : feqb (checks 2 g_x (g_j 0) (g_j 1)) fzero = true.
Proof. vm_cast_no_check (eq_refl true). Qed.
Lemma g_facts : (nonzero (g_j 0) && nonzero (fadd (fpow (g_j 0) 1) (g_j 1)) && negb (feqb g_t fone)) = true.
Proof. vm_cast_no_check (eq_refl true). Qed.
Lemma g_counted : exists e, forged_entry tx 2 g_cl g_x e /\ result_is (g_run e) [([true; false; true], [fval (fadd fone g_t); 1; 3])]%Z = true.
Proof.
  destruct (forged_exists tx tx_ok 2 g_cl g_x eq_refl eq_refl eq_refl eq_refl) as (e & He). exists e. split; [exact He|].
  assert (Hfair : fair_client tx 2 3 ex_vk g_cl) by (pose proof h_clients_fair as Hf; rewrite Forall_forall in Hf; apply Hf; right; left; reflexivity).
  assert (Hch : checks 2 g_x (g_j 0) (g_j 1) = fzero) by (exact (proj1 (feqb_eq _ _) g_cancel)).
  assert (Hal : e_ok e = true /\ e_alpha e = [true; false; true] /\ e_beta e = g_x) by (destruct He as (k0 & k1 & pr & _ & _ & ->); auto).
  destruct (forged_run tx tx_ok 2 eq_refl 3 ex_vk g_cl g_x e h_entries 20 (w_cfg 2) (g_server 0 (map e_r0 (e :: h_entries))) (g_server 1 (map e_r1 (e :: h_entries)))) as (t0 & t1 & Hr);
    [exact He|exact Hfair|reflexivity|exact Hch|apply h_entries_ok|apply h_entries_ok|reflexivity|reflexivity|reflexivity|cbn; lia|lia|cbn; lia|apply (g_uploaded true)|apply (g_uploaded false)| |].
  - intros l Hl Hb. assert (Hl1 : l = 1) by lia. subst l. exists [true]. split; [reflexivity|].
    destruct e as [ok r0 r1 al be]. cbn [e_ok e_alpha e_beta] in Hal. destruct Hal as (-> & -> & ->). vm_cast_no_check (eq_refl true).
  - unfold g_run. rewrite Hr. cbn [result_is].
    destruct e as [ok r0 r1 al be]. cbn [e_ok e_alpha e_beta] in Hal. destruct Hal as (-> & -> & ->). vm_cast_no_check (eq_refl true).
Qed.
