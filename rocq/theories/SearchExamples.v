(** Concrete cases for the properties of PropSearch. *)
From Verif Require Import Base BaseFacts Field Util Env Prg Vidpf Merkle Collect Server Driver SpecVidpf SpecTree SpecCollect SpecServer SpecLevel SpecWhh SpecSearch CollectInv SearchMain SearchProp
  WhhFacts RefEnv ToyEnv ExRun DriverPropFacts RefuteExamples WhhExamples.

(** the uploads: client and kind of the second share: honest, spoilt proof, changed seed correction of
    the second level, changed hash correction of the given level (one aggregator gets another key than the
    other) *)
Inductive kind := Good | BadProof | BadWord | BadHash (level : nat).
Definition BadLast : kind := BadHash 2.
Definition spoil_word (r : report_share) : report_share :=
  match r with
  | RSMastic n k p j =>
      RSMastic n {| key_idx := key_idx k; root_seed := root_seed k;
                    cor_words := match nth_error (cor_words k) 1 with
                                 | Some w => update 1 {| cw_seed := update 0 (N.lxor (hd 0%N (cw_seed w)) 64) (cw_seed w); cw_bits := cw_bits w; cw_word := cw_word w |} (cor_words k)
                                 | None => cor_words k end;
                    cs := cs k |} p j
  | x => x
  end.
Definition spoil_hash (i : nat) (r : report_share) : report_share :=
  match r with
  | RSMastic n k p j =>
      RSMastic n {| key_idx := key_idx k; root_seed := root_seed k; cor_words := cor_words k;
                    cs := match nth_error (cs k) i with Some c => update i (update 0 (N.lxor (hd 0%N c) 64) c) (cs k) | None => cs k end |} p j
  | x => x
  end.
Definition x_share (id : Z) (u : nat * kind) : report_share :=
  match nth_error w_reports (fst u) with
  | Some r => let s := ex_side id (to_shares r) in
              if (id =? 0)%Z then s else
              match snd u with Good => s | BadProof => match tamper false s with Ret t => t | Panic _ => s end | BadWord => spoil_word s | BadHash i => spoil_hash i s end
  | None => RSPrio3 [] [] []
  end.
Definition x_server (id : Z) (us : list (nat * kind)) (qs : list request) : server :=
  fst (handle_all tx (server_start id (Some 3) 2) ([QReset ex_vk 2; QAddReportShares (map (x_share id) us); QTreeInit] ++ qs)).
(** after the FLP check with the given outcome and the first level *)
Definition x_level1 (keep : list bool) : list request := [QApplyFlpResults keep; QTreeCrawl 1 [] false; QTreePrune [true; true]].
Definition x_pairs (s0 s1 : server) : list pair :=
  map (fun ab => (fst (fst ab), (snd (fst ab), snd (snd ab)))) (combine (c_reports (s_coll s0)) (c_reports (s_coll s1))).

(** *** checking the hypotheses by computation *)
Definition wfb (bits : nat) (r : report_share) : bool :=
  match r with
  | RSMastic _ k _ _ => (length (root_seed k) =? 16) && forallb (fun w => length (cw_seed w) =? 16) (cor_words k) && forallb (fun c => length c =? 16) (cs k)
                        && (bits <=? length (cor_words k)) && (bits <=? length (cs k))
  | _ => false
  end.
Lemma wfb_ok bits r : wfb bits r = true -> well_formed bits r.
Proof.
  destruct r as [n k p j|]; [|discriminate]. cbn [wfb]. intros H. repeat (apply andb_prop in H; destruct H as [H ?]). exists n, k, p, j.
  split; [reflexivity|]. split; [|split; apply Nat.leb_le; assumption]. split; [apply Nat.eqb_eq; exact H|].
  split; [intros w Hw|intros c Hc]; apply Nat.eqb_eq; match goal with X : forallb _ ?l = true |- _ => rewrite forallb_forall in X; apply X; assumption end.
Qed.
Definition sideb (bits : nat) (paths : list (list bool)) (s : server) : bool :=
  negb (s_poison s) && (match c_depth (s_coll s) with Some d => d =? bits | None => false end) && (c_len (s_coll s) =? 2) &&
  paths_eqb (ex_paths_of s) paths && forallb (fun node => length (tn_values node) =? length (c_reports (s_coll s))) (c_frontier (s_coll s)) &&
  forallb (fun hr => wfb bits (snd hr)) (c_reports (s_coll s)).
Definition startb (bits level : nat) (paths : list (list bool)) (s0 s1 : server) : bool :=
  sideb bits paths s0 && sideb bits paths s1 && bools_eqb (ex_flags s0) (ex_flags s1) && negb (length paths =? 0) && forallb (fun p => length p =? level) paths && (level <? bits).
Lemma paths_eqb_ok a b : paths_eqb a b = true -> a = b.
Proof. apply list_eqb_ok. apply list_eqb_ok. intros x y. apply eqb_prop. Qed.
Lemma pairs_held s0 s1 : ex_flags s0 = ex_flags s1 -> held true (x_pairs s0 s1) = c_reports (s_coll s0) /\ held false (x_pairs s0 s1) = c_reports (s_coll s1).
Proof.
  unfold ex_flags, x_pairs. generalize (c_reports (s_coll s0)) as a, (c_reports (s_coll s1)) as b. induction a as [|[h x] a IH]; intros [|[h' y] b] H; try discriminate; [split; reflexivity|].
  cbn [map fst] in H. assert (Hh : h = h') by congruence. assert (Ht : map fst a = map fst b) by congruence. subst h'. destruct (IH b Ht) as [P Q]. cbn [combine map held fst snd share_of].
  split; f_equal; assumption.
Qed.
Lemma startb_ok id0 id1 bits level paths us qs0 qs1 s0 s1 : (id0 =? 0)%Z = true -> (id1 =? 0)%Z = false -> s0 = x_server id0 us qs0 -> s1 = x_server id1 us qs1 ->
  startb bits level paths s0 s1 = true -> level_start tx 2 bits level paths (x_pairs s0 s1) s0 s1.
Proof.
  intros H0 H1 E0 E1 H. unfold startb in H. rewrite !andb_true_iff in H. destruct H as [[[[[? ?] ?] ?] ?] ?].
  match goal with X : bools_eqb _ _ = true |- _ => apply bools_eqb_ok in X; destruct (pairs_held s0 s1 X) as [P Q] end.
  assert (Hat : forall id s, s = x_server id us (if (id =? 0)%Z then qs0 else qs1) -> sideb bits paths s = true ->
    at_frontier tx (id =? 0)%Z 2 bits paths (c_reports (s_coll s)) s /\ forall h r, In (h, r) (c_reports (s_coll s)) -> well_formed bits r).
  { intros id s Hs X. unfold sideb in X. repeat (apply andb_prop in X; destruct X as [X ?]). split.
    - assert (Hp : ex_paths_of s = paths) by (apply paths_eqb_ok; assumption). rewrite <- Hp. unfold ex_paths_of.
      assert (Hc : c_len (s_coll s) = 2) by (apply Nat.eqb_eq; assumption). rewrite <- Hc. unfold x_server in Hs. apply (reach_at_frontier _ _ _ _ _ _ _ Hs).
      + destruct (s_poison s); [discriminate|reflexivity].
      + destruct (c_depth (s_coll s)) as [d|]; [|discriminate]. f_equal. apply Nat.eqb_eq. assumption.
      + intros node Hn. apply Nat.eqb_eq. match goal with X : forallb (fun node => _) (c_frontier _) = true |- _ => rewrite forallb_forall in X; apply X; exact Hn end.
    - intros h r Hr. apply wfb_ok. match goal with X : forallb _ (c_reports _) = true |- _ => rewrite forallb_forall in X; apply (X (h, r) Hr) end. }
  destruct (Hat id0 s0) as [A0 W0]; [rewrite H0; exact E0|assumption|]. destruct (Hat id1 s1) as [A1 W1]; [rewrite H1; exact E1|assumption|]. rewrite H0 in A0. rewrite H1 in A1.
  split; [rewrite P; exact A0|]. split; [rewrite Q; exact A1|]. split; [|split; [|split; [|apply Nat.ltb_lt; assumption]]].
  - apply Forall_forall. intros [h [x y]] Hin. split.
    + apply (W0 h). rewrite <- P. unfold held. apply in_map_iff. exists (h, (x, y)). split; [reflexivity|exact Hin].
    + apply (W1 h). rewrite <- Q. unfold held. apply in_map_iff. exists (h, (x, y)). split; [reflexivity|exact Hin].
  - intros ->. discriminate.
  - intros p Hp. apply Nat.eqb_eq. match goal with X : forallb _ paths = true |- _ => rewrite forallb_forall in X; apply X; exact Hp end.
Qed.
Definition nocollb (h0 h1 : list bytes) : bool :=
  forallb (fun k => forallb (fun j =>
    match merkle_root tx (block k j h0), merkle_root tx (block k j h1) with
    | Some a, Some b => negb (bytes_eqb a b) || list_eqb bytes_eqb (block k j h0) (block k j h1)
    | None, None => list_eqb bytes_eqb (block k j h0) (block k j h1)
    | _, _ => true end) (seq 0 (length h0))) (seq 0 (S (Nat.log2_up (length h0)))).
Lemma bytes_eqb_true a b : bytes_eqb a b = true -> a = b.
Proof. apply list_eqb_ok. intros x y. apply N.eqb_eq. Qed.
Lemma nocollb_ok h0 h1 : nocollb h0 h1 = true -> no_collision tx h0 h1.
Proof.
  intros H k j Hk Hj He. unfold nocollb in H. rewrite forallb_forall in H. specialize (H k ltac:(apply in_seq; lia)). cbv beta in H. rewrite forallb_forall in H.
  assert (Hj' : j < length h0) by (pose proof (Nat.pow_nonzero 2 k ltac:(lia)); nia). specialize (H j ltac:(apply in_seq; lia)). rewrite He in H.
  destruct (merkle_root tx (block k j h1)) as [a|]; [|apply (list_eqb_ok bytes_eqb bytes_eqb_true); exact H].
  assert (Hr : bytes_eqb a a = true) by (unfold bytes_eqb; clear; induction a as [|x a IH]; [reflexivity|]; cbn; rewrite N.eqb_refl; exact IH).
  rewrite Hr in H. apply (list_eqb_ok bytes_eqb bytes_eqb_true). exact H.
Qed.
Definition fineb (level : nat) (paths : list (list bool)) (R : list pair) : bool :=
  nocollb (map (vstring tx true 2 level paths) (remaining R)) (map (vstring tx false 2 level paths) (remaining R)).
Lemma fineb_ok level paths R : fineb level paths R = true -> hashes_fine tx 2 level paths R.
Proof. intros H. split; [reflexivity|]. apply nocollb_ok. exact H. Qed.

(** *** the cases *)
Record case := { k_us : list (nat * kind); k_keep : list bool }.
Definition k_server (id : Z) (k : case) : server := x_server id (k_us k) (x_level1 (k_keep k)).
Definition k_pairs (k : case) : list pair := x_pairs (k_server 0 k) (k_server 1 k).
Definition k_paths : list (list bool) := [[false]; [true]].
Definition k_setting (k : case) : Prop :=
  level_start tx 2 3 1 k_paths (k_pairs k) (k_server 0 k) (k_server 1 k) /\ hashes_fine tx 2 1 k_paths (k_pairs k).
Definition k_consistent (k : case) : list bool := map (consistent tx 2 1 k_paths) (k_pairs k).
(** the flags on both aggregators after one level, and the surviving paths *)
Definition k_after (k : case) : option (list bool * list bool * list (list bool)) :=
  match run_level 10 tx (w_cfg 1) (k_server 0 k) (k_server 1 k) (length (k_us k)) with
  | Ret (t0, t1) => Some (ex_flags t0, ex_flags t1, ex_paths_of t0)
  | Panic _ => None
  end.
(** the whole run from the upload to the result *)
Definition k_result (k : case) : option (list (list bool * list Z)) :=
  match run_whh 20 tx (w_cfg 1) (x_server 0 (k_us k) []) (x_server 1 (k_us k) []) (length (k_us k)) with
  | Ret (_, _, l) => Some (map (fun r => (res_path r, map fval (res_value r))) l)
  | Panic _ => None
  end.
Definition k_settingb (k : case) : bool := startb 3 1 k_paths (k_server 0 k) (k_server 1 k) && fineb 1 k_paths (k_pairs k).
Lemma k_setting_ok k : k_settingb k = true -> k_setting k.
Proof.
  intros H. apply andb_prop in H. destruct H as [H1 H2]. split; [|apply fineb_ok; exact H2].
  apply (startb_ok 0%Z 1%Z 3 1 k_paths (k_us k) (x_level1 (k_keep k)) (x_level1 (k_keep k))); [reflexivity|reflexivity|reflexivity|reflexivity|exact H1].
Qed.
Definition k_all : case := {| k_us := [(0, Good); (1, BadWord); (2, Good); (0, Good); (1, BadWord)]; k_keep := [true; true; true; true; true] |}.
Definition k_shift : case := {| k_us := [(0, BadProof); (1, Good); (0, BadWord); (2, Good)]; k_keep := [false; true; true; true] |}.
Definition k_shrunk : case := {| k_us := [(0, BadProof); (1, Good); (2, BadWord)]; k_keep := [false; true; true] |}.
Definition k_none : case := {| k_us := [(0, BadWord); (1, BadWord)]; k_keep := [true; true] |}.
Definition oafter_eqb (a b : option (list bool * list bool * list (list bool))) : bool :=
  match a, b with
  | Some (x, y, z), Some (x', y', z') => bools_eqb x x' && bools_eqb y y' && paths_eqb z z'
  | None, None => true | _, _ => false end.
Lemma oafter_eqb_ok a b : oafter_eqb a b = true -> a = b.
Proof.
  destruct a as [[[x y] z]|], b as [[[x' y'] z']|]; try discriminate; [|reflexivity]. cbn. rewrite !andb_true_iff. intros [[A B] C].
  apply bools_eqb_ok in A, B. apply paths_eqb_ok in C. congruence.
Qed.
Lemma k_all_ok : k_setting k_all /\ all_accepted (k_pairs k_all) /\ k_consistent k_all = [true; false; true; true; false] /\
  k_after k_all = Some ([true; false; true; true; false], [true; false; true; true; false], [[false; false]; [true; false]]).
Proof.
  split; [apply k_setting_ok; vm_cast_no_check (eq_refl true)|].
  split; [apply Forall_forall; intros x Hx; assert (H : forallb fst (k_pairs k_all) = true) by (vm_cast_no_check (eq_refl true)); rewrite forallb_forall in H; apply H; exact Hx|].
  split; [apply bools_eqb_ok; vm_cast_no_check (eq_refl true)|]. apply oafter_eqb_ok. vm_cast_no_check (eq_refl true).
Qed.
Lemma k_shift_ok : k_setting k_shift /\ map fst (k_pairs k_shift) = [false; true; true; true] /\ k_consistent k_shift = [true; true; false; true] /\
  k_after k_shift = Some ([false; false; true; true], [false; false; true; true], [[false; false]; [false; true]; [true; false]]).
Proof.
  split; [apply k_setting_ok; vm_cast_no_check (eq_refl true)|].
  split; [apply bools_eqb_ok; vm_cast_no_check (eq_refl true)|].
  split; [apply bools_eqb_ok; vm_cast_no_check (eq_refl true)|]. apply oafter_eqb_ok. vm_cast_no_check (eq_refl true).
Qed.
Lemma k_crash_ok :
  (k_setting k_shrunk /\ map fst (k_pairs k_shrunk) = [false; true; true] /\ k_consistent k_shrunk = [true; true; false] /\ k_after k_shrunk = None) /\
  (k_setting k_none /\ map fst (k_pairs k_none) = [true; true] /\ k_consistent k_none = [false; false] /\ k_after k_none = None).
Proof.
  split; (split; [apply k_setting_ok; vm_cast_no_check (eq_refl true)|]; split; [apply bools_eqb_ok; vm_cast_no_check (eq_refl true)|];
    split; [apply bools_eqb_ok; vm_cast_no_check (eq_refl true)|]; apply oafter_eqb_ok; vm_cast_no_check (eq_refl true)).
Qed.
