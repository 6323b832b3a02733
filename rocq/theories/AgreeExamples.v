(** Concrete cases for C69: the clients of C22_example, C52_example and C53_example. *)
From Verif Require Import Base BaseFacts Field Util Env Prg Vidpf Merkle Collect Server Driver Modes SpecVidpf SpecLevel SpecWhh SpecMetrics SpecModes SpecAgree
  RefEnv ToyEnv ExRun WhhExamples DriverPropFacts ModesExamples MetricsExamples.

(** five uploads, one spoilt; the strings 101 and 001 as attributes *)
Definition ag_last (o : option (list (list (list bool * list fld)))) : list (list bool * list Z) :=
  match o with Some ts => map (fun x => (fst x, map fval (snd x))) (last ts []) | None => [] end.
Lemma ag_abm_ok : ag_last (m_tables tx) = [([true; false; true], [1; 2]); ([false; false; true], [0; 1])]%Z /\
  w_result 2 = Some [([true; false; true], [1; 2; 3])]%Z /\ w_result 1 = Some [([false; false; true], [0; 1; 1]); ([true; false; true], [1; 2; 3])]%Z.
Proof.
  split; [|split; apply zs_eqb_ok; vm_cast_no_check (eq_refl true)].
  apply (list_eqb_ok (fun u v => path_eqb (fst u) (fst v) && list_eqb Z.eqb (snd u) (snd v))).
  - intros [a u] [b v] H. apply andb_prop in H. destruct H as [H1 H2]. apply path_eqb_eq in H1. apply (list_eqb_ok Z.eqb (fun x y => proj1 (Z.eqb_eq x y))) in H2. cbn in H1, H2. congruence.
  - vm_cast_no_check (eq_refl true).
Qed.

(** four honest uploads in plain metrics, batches of three, and in weighted heavy hitters with threshold 1 *)
Definition ag_choices : list choice := honest_choices [0; 1; 2; 0].
Definition ag_hists (o : outcome (server * server * list (list Z * Z))) : list (list Z) := match o with Ret (_, _, hs) => map fst hs | Panic _ => [] end.
Definition ag_pm : list (list Z) := ag_hists (main_pm 20 tx p_shard (cfg2 2 3 1) p_clients ex_vk ag_choices (server_start 0 None 2) (server_start 1 None 2)).
Definition zll_eqb : list (list Z) -> list (list Z) -> bool := list_eqb (list_eqb Z.eqb).
Lemma ag_pm_ok : map cl_bucket w_clients = map pc_bucket p_clients /\ zll_eqb ag_pm [[1; 2]; [0; 1]]%Z = true /\
  w_run w_clients ag_choices 1 = Some [([false; false; true], [0; 1; 1]); ([true; false; true], [1; 2; 3])]%Z.
Proof. split; [reflexivity|]. split; [vm_cast_no_check (eq_refl true)|]. apply zs_eqb_ok. vm_cast_no_check (eq_refl true). Qed.
