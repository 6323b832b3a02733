(** Concrete case for C78: client 1 of C75_example advertises a wrong part and uploads the weights (5, -3). *)
From Verif Require Import Base BaseFacts Field Util Env Vidpf Collect Server Driver Histogram PolyFacts HistFacts HistSplit SpecVidpf SpecCollect SpecServer SpecLevel SpecWhh SpecHist
  ToyEnv ExRun DriverPropFacts WhhExamples HistExamples.

Definition t_q0 : bytes := repeat 7%N 16.
Definition t_q1 : bytes := xof_bytes tx (cl_seed1 g_cl) (repeat 0%N 16) (1%N :: cl_nonce g_cl) 16.
Definition t_first (n : nat) : fld := nth n (joint_of_first tx g_cl t_q1) fzero.
Definition t_second (n : nat) : fld := nth n (joint_of_second tx g_cl t_q0) fzero.
Definition t_x : list fld := [of_nat 5; fneg (of_nat 3)].
Lemma t_differ : feqb (t_first 1) (t_second 1) = false.
Proof. vm_cast_no_check (eq_refl false). Qed.
Lemma t_off : off_domain ex_vk g_cl = true.
Proof. vm_cast_no_check (eq_refl true). Qed.
(** the run: this report and three honest ones, threshold 2 *)
Lemma t_counted : exists e, advertised tx g_cl t_x t_q0 t_q1 e /\ result_is (g_run e) [([true; false; true], [6; fval (fneg (of_nat 2)); 3])]%Z = true.
Proof.
  assert (Hne : nth 1 (joint_of_first tx g_cl t_q1) fzero <> nth 1 (joint_of_second tx g_cl t_q0) fzero).
  { intros Hz. apply feqb_eq in Hz. pose proof t_differ as Ht. unfold t_first, t_second in Ht. rewrite Hz in Ht. discriminate Ht. }
  destruct (split_any tx tx_ok 2 eq_refl 3 g_cl t_x t_q0 t_q1 ltac:(lia) eq_refl eq_refl eq_refl eq_refl Hne) as (e & He & Hg & Hv). exists e. split; [exact He|].
  assert (Hoff : ~ on_domain chunk 2 (query_point tx 2 ex_vk g_cl)). { intros Hz. apply feqb_eq in Hz. pose proof t_off as Ht. unfold off_domain in Ht. rewrite Hz in Ht. discriminate Ht. }
  assert (Hal : e_ok e = true /\ e_alpha e = [true; false; true] /\ e_beta e = t_x) by (destruct He as (k0 & k1 & p0 & p1 & _ & ->); auto).
  destruct (split_run tx tx_ok 2 3 ex_vk g_cl t_x t_q0 t_q1 e h_entries 20 (w_cfg 2) (g_server 0 (map e_r0 (e :: h_entries))) (g_server 1 (map e_r1 (e :: h_entries)))) as (t0 & t1 & Hr);
    [exact He|exact Hg|exact (Hv ex_vk Hoff)|apply h_entries_ok|apply h_entries_ok|reflexivity|reflexivity|reflexivity|cbn; lia|lia|cbn; lia|apply (g_uploaded true)|apply (g_uploaded false)| |].
  - intros l Hl Hb. assert (Hl1 : l = 1) by lia. subst l. exists [true]. split; [reflexivity|].
    destruct e as [ok r0 r1 al be]. cbn [e_ok e_alpha e_beta] in Hal. destruct Hal as (-> & -> & ->). vm_cast_no_check (eq_refl true).
  - unfold g_run. rewrite Hr. cbn [result_is].
    destruct e as [ok r0 r1 al be]. cbn [e_ok e_alpha e_beta] in Hal. destruct Hal as (-> & -> & ->). vm_cast_no_check (eq_refl true).
Qed.

(** the same by computation, with the proof shares of HistSplit.split_accept; not recorded, since the checker
    would take long over it *)
Definition t_proofs (x0 x1 : list fld) (a0 a1 b0 b1 : fld) : list fld * list fld :=
  let n := gadget_poly_len chunk 2 in let s := finv (of_nat 2) in let z := repeat fzero (arity chunk) in
  let p := par_poly n (map (both_wire chunk 2 x0 x1 a0 b0) (seq 0 (2 * chunk))) in
  let S := big (ncalls chunk 2) (fun k => poly_eval p (fpow (root (wire_log chunk 2)) (k + 1))) in
  let rest := fadd (fmul a1 S) (fadd (fmul (fmul a1 a1) (fsub (sum_f x0) s)) (fmul (fmul b1 b1) (fsub (sum_f x1) s))) in
  let d := fmul (finv (fmul (of_nat (ncalls chunk 2)) (fsub b1 a1))) (fneg rest) in
  let q := d :: repeat fzero (n - 1) in (z ++ zip_sub p q, z ++ q).
Definition t_entry (o : outcome (vidpf_key * vidpf_key)) : option entry :=
  match o with
  | Ret (k0, k1) =>
      let '(p0, p1) := t_proofs (beta_share tx 2 k0) (beta_share tx 2 k1) (t_first 0) (t_first 1) (t_second 0) (t_second 1) in
      Some {| e_ok := true; e_r0 := RSMastic (cl_nonce g_cl) k0 p0 (t_q0, t_q1); e_r1 := RSMastic (cl_nonce g_cl) k1 p1 (t_q0, t_q1); e_alpha := cl_alpha g_cl; e_beta := t_x |}
  | Panic _ => None
  end.
Definition t_result (o : option entry) : bool :=
  match o with Some e => result_is (g_run e) [([true; false; true], [6; fval (fneg (of_nat 2)); 3])]%Z | None => false end.
Succeed Definition by_computation := (eq_refl true <: t_result (t_entry (gen (with_hist tx) (cl_seed0 g_cl) (cl_seed1 g_cl) (cl_alpha g_cl) t_x)) = true).
