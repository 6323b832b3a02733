(** Concrete cases for C83. *)
From Verif Require Import Base BaseFacts Field Util Env Prg Vidpf Merkle Collect Server Driver Modes Sched System SpecVidpf SpecLevel SpecWhh SpecMetrics SpecModes SpecTamper
  RefEnv ToyEnv ExRun DriverPropFacts WhhExamples ModesExamples TamperFacts.
From Coq Require Import Lia Permutation.

(** *** plain metrics: in the batch that begins at the fourth upload 1000 is added to bucket 0 and 1 is taken from bucket 1 *)
Definition ta_extra (start j : nat) : Z := if start =? 3 then (if j =? 0 then 1000%Z else (-1)%Z) else 0%Z.
Lemma ta_histograms who : exists t0 t1,
  tampered rx who (add_to_histograms (fun start j => of_Z (ta_extra start j))) (main_pm_p 20 rx p_shard (cfg2 2 3 1) p_clients ex_vk p_choices) (server_start 0 None 2) (server_start 1 None 2) =
  Ret (t0, t1, [([1; 1], 1); ([1000; 0], 0)])%Z.
Proof.
  destruct p_example as (H1 & H2 & H3 & _).
  assert (Hx : forall k h j z, nth_error (map (vote_histogram 2) (pieces (cfg_query_batch (cfg2 2 3 1)) (pm_votes p_clients p_choices))) k = Some h -> nth_error (fst h) j = Some z -> (0 <= z + ta_extra (k * cfg_query_batch (cfg2 2 3 1))%nat j < P)%Z).
  { cbn [cfg2 cfg_query_batch]. rewrite H3. intros k h j z Hk Hj. assert (D : (2000 < P)%Z) by reflexivity. generalize dependent P. intros P D.
    destruct k as [|[|k]]; [| |destruct k; discriminate]; injection Hk as <-; cbn [fst] in Hj; (destruct j as [|[|j]]; [| |destruct j; discriminate]); injection Hj as <-; cbn; lia. }
  destruct (padded_histograms rx who ta_extra p_shard 2 ex_vk p_clients p_choices 20 (cfg2 2 3 1) (server_start 0 None 2) (server_start 1 None 2) H1 H2
    eq_refl eq_refl ltac:(discriminate) ltac:(cbn; lia) ltac:(cbn; lia) ltac:(cbn; lia) ltac:(reflexivity) eq_refl eq_refl eq_refl eq_refl Hx) as (t0 & t1 & H).
  exists t0, t1. refine (eq_trans H _). cbn [cfg2 cfg_query_batch]. rewrite H3. reflexivity.
Qed.

(** *** attribute-based metrics: 7 added to the first attribute and bucket 1 in the second batch, to the second attribute and
    bucket 0 in the third *)
Definition ta_table (start a j : nat) : fld := of_Z (if (start =? 2) && (a =? 0) && (j =? 1) || (start =? 4) && (a =? 1) && (j =? 0) then 7 else 0).
Lemma zs_eq : forall l l', list_eqb Z.eqb l l' = true -> l = l'.
Proof. induction l as [|x l IH]; intros [|y l'] H; cbn in H; try discriminate; [reflexivity|]. apply Bool.andb_true_iff in H. destruct H as [H1 H2]. apply Z.eqb_eq in H1. subst y. f_equal. apply IH, H2. Qed.
Lemma fvals_eq l z : map fval l = z -> l = map of_Z z.
Proof. intros <-. rewrite map_map. induction l as [|x l IH]; [reflexivity|]. cbn [map]. rewrite of_Z_fval, <- IH. reflexivity. Qed.
Lemma table_eq : forall (t : list (list bool * list fld)) b, list_eqb (fun u v => path_eqb (fst u) (fst v) && list_eqb Z.eqb (snd u) (snd v)) (map (fun x => (fst x, map fval (snd x))) t) b = true ->
  t = map (fun x => (fst x, map of_Z (snd x))) b.
Proof.
  induction t as [|[p v] t IH]; intros [|[p' v'] b] H; cbn in H; try discriminate; [reflexivity|]. apply Bool.andb_true_iff in H. destruct H as [H1 H2]. apply Bool.andb_true_iff in H1. destruct H1 as [H1 H3].
  apply path_eqb_eq in H1. apply zs_eq, fvals_eq in H3. cbn [map fst snd]. subst p' v. f_equal. apply IH, H2.
Qed.
Lemma abm_eqb_eq o b : abm_eqb o b = true -> o = Some (map (map (fun x => (fst x, map of_Z (snd x)))) b).
Proof.
  destruct o as [ts|]; [|discriminate]. intros H. f_equal. unfold abm_eqb in H. revert b H. induction ts as [|t ts IH]; intros [|x b] H; cbn in H; try discriminate; [reflexivity|].
  apply Bool.andb_true_iff in H. destruct H as [H1 H2]. cbn [map]. f_equal; [apply table_eq, H1|apply IH, H2].
Qed.
Definition tables_of {A S} (o : outcome (S * S * A)) : option A := match o with Ret (_, _, ts) => Some ts | Panic _ => None end.
Definition ta_run (who : bool) : outcome (server * server * list (list (list bool * list fld))) :=
  tampered tx who (add_to_tables ta_table) (main_abm_p 20 tx (cfg2 2 2 1) w_clients ex_vk w_choices [1; 2; 1] (@rev (list bool))) (fst w_servers) (snd w_servers).
Lemma tables_change {A S} (r o : outcome (S * S * A)) (f : A -> A) ts : r = (let! '(t0, t1, x) := o in Ret (t0, t1, f x)) -> tables_of o = Some ts -> tables_of r = Some (f ts).
Proof. intros -> H. destruct o as [[[t0 t1] x]|e]; [|discriminate]. cbn in *. congruence. Qed.
Definition ta_honest : list (list (list bool * list fld)) := map (map (fun x => (fst x, map of_Z (snd x))))
  [[([true; false; true], [1; 1]); ([false; false; true], [0; 0])]; [([true; false; true], [1; 2]); ([false; false; true], [0; 1])]; [([true; false; true], [1; 2]); ([false; false; true], [0; 1])]]%Z.
Lemma ta_change o who : main_abm 20 tx (cfg2 2 2 1) w_clients ex_vk w_choices [1; 2; 1] (@rev (list bool)) (fst w_servers) (snd w_servers) = o ->
  ta_run who = let! '(t0, t1, ts) := o in Ret (t0, t1, each (cfg_query_batch (cfg2 2 2 1)) (fun start t => raised_table (ta_table start) t) ts).
Proof. intros <-. unfold ta_run. rewrite main_tampered. reflexivity. Qed.
Lemma m_tables_of : forall E, m_tables E = tables_of (main_abm 20 E (cfg2 2 2 1) w_clients ex_vk w_choices [1; 2; 1] (@rev (list bool)) (fst w_servers) (snd w_servers)).
Proof. intros E. unfold m_tables, tables_of. reflexivity. Qed.
Lemma ta_changed who : tables_of (ta_run who) = Some (each 2 (fun start t => raised_table (ta_table start) t) ta_honest).
Proof.
  destruct m_example as (_ & _ & _ & _ & _ & H & _). apply abm_eqb_eq in H. revert H. fold ta_honest. generalize ta_honest as ts. intros ts H.
  pose proof (ta_change _ who eq_refl) as H1. pose proof (m_tables_of tx) as H2. revert H1 H2. generalize (main_abm 20 tx (cfg2 2 2 1) w_clients ex_vk w_choices [1; 2; 1] (@rev (list bool)) (fst w_servers) (snd w_servers)).
  intros o H1 H2. rewrite H1. rewrite H2 in H. revert H. clear. destruct o as [[[t0 t1] x]|e]; [|discriminate]. cbn. intros H. injection H as ->. reflexivity.
Qed.
Lemma ta_attributes who :
  abm_eqb (tables_of (ta_run who)) [[([true; false; true], [1; 1]); ([false; false; true], [0; 0])];
                                    [([true; false; true], [1; 9]); ([false; false; true], [0; 1])];
                                    [([true; false; true], [1; 2]); ([false; false; true], [7; 1])]]%Z = true.
Proof. rewrite ta_changed. vm_compute. reflexivity. Qed.
