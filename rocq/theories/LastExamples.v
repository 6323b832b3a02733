(** Concrete cases for the properties of PropLast. *)
From Verif Require Import Base BaseFacts Field Util Env Prg Vidpf Merkle Collect Server Driver SpecVidpf SpecTree SpecCollect SpecServer SpecLevel SpecWhh SpecSearch SpecLast
  RefEnv ToyEnv ExRun DriverPropFacts RefuteExamples WhhExamples SearchExamples.

(** both aggregators after the first two of three levels *)
Definition l_reqs (keep : list bool) : list request := x_level1 keep ++ [QTreeCrawl 1 [] false; QTreePrune [true; false; true; false]].
Definition l_server (id : Z) (k : case) : server := x_server id (k_us k) (l_reqs (k_keep k)).
Definition l_pairs (k : case) : list pair := x_pairs (l_server 0 k) (l_server 1 k).
Definition l_paths : list (list bool) := [[false; false]; [true; false]].
Definition l_start (k : case) : Prop := level_start tx 2 3 2 l_paths (l_pairs k) (l_server 0 k) (l_server 1 k).
Definition l_agree (k : case) : list bool := map (proofs_agree tx 2 l_paths) (l_pairs k).
Definition l_after (k : case) : option (list (list bool * list Z)) :=
  match run_level_last 10 tx (w_cfg 1) (l_server 0 k) (l_server 1 k) (length (k_us k)) with
  | Ret (_, _, l) => Some (map (fun r => (res_path r, map fval (res_value r))) l)
  | Panic _ => None
  end.
Lemma l_start_ok k : startb 3 2 l_paths (l_server 0 k) (l_server 1 k) = true -> l_start k.
Proof. apply (startb_ok 0%Z 1%Z 3 2 l_paths (k_us k) (l_reqs (k_keep k)) (l_reqs (k_keep k))); reflexivity. Qed.
Definition ores_eqb (a b : option (list (list bool * list Z))) : bool :=
  match a, b with
  | Some x, Some y => list_eqb (fun u v => path_eqb (fst u) (fst v) && list_eqb Z.eqb (snd u) (snd v)) x y
  | None, None => true | _, _ => false end.
Lemma ores_eqb_ok a b : ores_eqb a b = true -> a = b.
Proof.
  destruct a as [a|], b as [b|]; try discriminate; [|reflexivity]. cbn. intros H. f_equal. revert H. apply list_eqb_ok.
  intros [p v] [p' v'] H. cbn [fst snd] in H. apply andb_prop in H. destruct H as [A B].
  f_equal; [revert A; unfold path_eqb; apply list_eqb_ok; intros x y; apply eqb_prop|revert B; apply list_eqb_ok; intros x y; apply Z.eqb_eq].
Qed.

Definition l_good : case := {| k_us := [(0, Good); (1, Good); (2, Good)]; k_keep := [true; true; true] |}.
Definition l_bad : case := {| k_us := [(0, Good); (1, BadLast); (2, Good)]; k_keep := [true; true; true] |}.
(** one report rejected before; of the three remaining reports the last one has differing proofs *)
Definition l_rej : case := {| k_us := [(0, BadProof); (1, Good); (2, Good); (1, BadLast)]; k_keep := [false; true; true; true] |}.
Definition l_few : case := {| k_us := [(0, BadProof); (2, BadLast)]; k_keep := [false; true] |}.
Lemma l_good_ok : l_start l_good /\ map fst (l_pairs l_good) = [true; true; true] /\ l_agree l_good = [true; true; true] /\
  l_after l_good = Some [([false; false; true], [0; 1; 1]%Z); ([true; false; true], [1; 1; 2]%Z)].
Proof.
  split; [apply l_start_ok; vm_cast_no_check (eq_refl true)|]. split; [apply bools_eqb_ok; vm_cast_no_check (eq_refl true)|].
  split; [apply bools_eqb_ok; vm_cast_no_check (eq_refl true)|]. apply ores_eqb_ok. vm_cast_no_check (eq_refl true).
Qed.
Lemma l_bad_ok : l_start l_bad /\ map fst (l_pairs l_bad) = [true; true; true] /\ l_agree l_bad = [true; false; true] /\ l_after l_bad = None.
Proof.
  split; [apply l_start_ok; vm_cast_no_check (eq_refl true)|]. split; [apply bools_eqb_ok; vm_cast_no_check (eq_refl true)|].
  split; [apply bools_eqb_ok; vm_cast_no_check (eq_refl true)|]. apply ores_eqb_ok. vm_cast_no_check (eq_refl true).
Qed.
Lemma l_rej_ok : l_start l_rej /\ map fst (l_pairs l_rej) = [false; true; true; true] /\ l_agree l_rej = [true; true; true; false] /\
  l_after l_rej = Some [([false; false; true], [0; 1; 1]%Z); ([true; false; true], [2; 0; 2]%Z)].
Proof.
  split; [apply l_start_ok; vm_cast_no_check (eq_refl true)|]. split; [apply bools_eqb_ok; vm_cast_no_check (eq_refl true)|].
  split; [apply bools_eqb_ok; vm_cast_no_check (eq_refl true)|]. apply ores_eqb_ok. vm_cast_no_check (eq_refl true).
Qed.
Lemma l_few_ok : l_start l_few /\ map fst (l_pairs l_few) = [false; true] /\ l_agree l_few = [true; false] /\
  l_after l_few = Some [([false; false; true], [0; 1; 1]%Z)] /\ k_result l_few = Some [([false; false; true], [0; 1; 1]%Z)].
Proof.
  split; [apply l_start_ok; vm_cast_no_check (eq_refl true)|]. split; [apply bools_eqb_ok; vm_cast_no_check (eq_refl true)|].
  split; [apply bools_eqb_ok; vm_cast_no_check (eq_refl true)|]. split; apply ores_eqb_ok; vm_cast_no_check (eq_refl true).
Qed.
