(** Concrete cases for C61: the hypotheses hold for the honest reports of C52_example, and a report with zero
    hashes spread over two strings. *)
From Verif Require Import Base BaseFacts Field Util Env Prg Vidpf Merkle Collect Server Driver Modes SpecVidpf SpecTree SpecLevel SpecWhh SpecMetrics SpecForge SpecModes SpecHash SpecOne
  VidpfFacts AbmForge WhhFacts FlpFacts VidpfPropFacts RefEnv ToyEnv ExRun DriverPropFacts RefuteExamples WhhExamples MetricsExamples ModesExamples AbmExamples OneFacts OneForge.

(** *** checking the hypotheses by computation *)
Definition nodes_of (paths : list (list bool)) : list (list bool) := flat_map (fun path => map (fun n => firstn (S n) path) (seq 0 (length path))) paths.
Lemma nodes_under paths q : under paths q <-> In q (nodes_of paths).
Proof.
  unfold nodes_of. rewrite in_flat_map. split.
  - intros (Hne & path & Hin & Hp). exists path. split; [exact Hin|]. apply is_prefix_firstn in Hp. destruct Hp as [Hp Hl].
    apply in_map_iff. exists (length q - 1). assert (length q <> 0) by (destruct q; [contradiction|discriminate]).
    replace (S (length q - 1)) with (length q) by lia. split; [symmetry; exact Hp|]. apply in_seq. lia.
  - intros (path & Hin & Hq). apply in_map_iff in Hq. destruct Hq as (n & <- & Hn). apply in_seq in Hn. split.
    + destruct path; [cbn in Hn; lia|discriminate].
    + exists path. split; [exact Hin|]. rewrite <- (firstn_skipn (S n) path) at 2. apply is_prefix_app.
Qed.
Definition pairs_of (E : env) (k0 k1 : vidpf_key) (len : nat) (q : list bool) : option (eval_state * eval_state) :=
  match eval_loop E k0 (eval_init k0) [] q len, eval_loop E k1 (eval_init k1) [] q len with
  | Ret (s0, _, _), Ret (s1, _, _) => Some (s0, s1) | _, _ => None end.
Lemma pairs_of_ok E k0 k1 len q s0 s1 : node_state E k0 len q s0 -> node_state E k1 len q s1 -> pairs_of E k0 k1 len q = Some (s0, s1).
Proof. intros (b0 & o0 & H0) (b1 & o1 & H1). unfold pairs_of. rewrite H0, H1. reflexivity. Qed.
Definition fvals (l : list fld) : list Z := map fval l.
Definition free_b (E : env) (k0 k1 : vidpf_key) (len : nat) (nodes : list (list bool)) : bool :=
  forallb (fun q => match pairs_of E k0 k1 len q with
    | Some (s0, s1) =>
       implb (bytes_eqb (hash16 E q (es_seed s0)) (hash16 E q (es_seed s1))) (bytes_eqb (es_seed s0) (es_seed s1)) &&
       forallb (fun r => match pairs_of E k0 k1 len r with
         | Some (u0, u1) => path_eqb q r || bytes_eqb (es_seed s0) (es_seed s1) || bytes_eqb (es_seed u0) (es_seed u1) ||
              negb (bytes_eqb (xor_vec (hash16 E q (es_seed s0)) (hash16 E q (es_seed s1))) (xor_vec (hash16 E r (es_seed u0)) (hash16 E r (es_seed u1))))
         | None => true end) nodes &&
       match pairs_of E k0 k1 len (removelast q) with
       | Some (p0, p1) =>
          implb (bytes_eqb (next_proof E (es_proof p0) (contribution E k0 q s0)) (next_proof E (es_proof p1) (contribution E k1 q s1)))
                (bytes_eqb (xor_vec (es_proof p0) (contribution E k0 q s0)) (xor_vec (es_proof p1) (contribution E k1 q s1))) &&
          match convert E (pre_seed E k0 p0 (last q false)) len, convert E (pre_seed E k1 p1 (last q false)) len with
          | Ret (t0, w0), Ret (t1, w1) => implb (bytes_eqb t0 t1) (list_eqb Z.eqb (fvals w0) (fvals w1))
          | _, _ => true
          end
       | None => true end
    | None => false end) nodes.
Lemma fvals_inj a : forall b, fvals a = fvals b -> a = b.
Proof. induction a as [|x a IH]; intros [|y b] H; try discriminate; [reflexivity|]. injection H as H1 H2. f_equal; [apply f_ext; exact H1|apply IH; exact H2]. Qed.
Lemma implb_ok (a b : bool) : implb a b = true -> a = true -> b = true.
Proof. destruct a, b; auto. Qed.
Lemma free_b_ok E k0 k1 len paths : free_b E k0 k1 len (nodes_of paths) = true -> no_coincidence E k0 k1 len (under paths).
Proof.
  intros H. unfold free_b in H. rewrite forallb_forall in H.
  assert (HZ : forall a b : Z, (a =? b)%Z = true <-> a = b) by apply Z.eqb_eq.
  split; [|split; [|split]].
  - intros q s0 s1 Hu S0 S1 Hh. apply nodes_under in Hu. specialize (H q Hu). rewrite (pairs_of_ok _ _ _ _ _ _ _ S0 S1) in H.
    apply andb_true_iff in H. destruct H as [H _]. apply andb_true_iff in H. destruct H as [H _]. apply bytes_eqb_eq. apply (implb_ok _ _ H). apply bytes_eqb_eq. exact Hh.
  - intros q r s0 s1 u0 u1 Hq Hr Hne _ S0 S1 U0 U1 N0 N1 Hx. apply nodes_under in Hq, Hr. specialize (H q Hq). rewrite (pairs_of_ok _ _ _ _ _ _ _ S0 S1) in H.
    apply andb_true_iff in H. destruct H as [H _]. apply andb_true_iff in H. destruct H as [_ H]. rewrite forallb_forall in H. specialize (H r Hr). rewrite (pairs_of_ok _ _ _ _ _ _ _ U0 U1) in H.
    rewrite !orb_true_iff in H. destruct H as [[[H|H]|H]|H].
    + apply path_eqb_eq in H. contradiction.
    + apply bytes_eqb_eq in H. contradiction.
    + apply bytes_eqb_eq in H. contradiction.
    + apply negb_true_iff in H. rewrite (proj2 (bytes_eqb_eq _ _) Hx) in H. discriminate.
  - intros q d s0 s1 u0 u1 Hq S0 S1 U0 U1 Hn. apply nodes_under in Hq. specialize (H _ Hq). rewrite (pairs_of_ok _ _ _ _ _ _ _ U0 U1) in H.
    apply andb_true_iff in H. destruct H as [_ H]. rewrite removelast_last, (pairs_of_ok _ _ _ _ _ _ _ S0 S1) in H. apply andb_true_iff in H. destruct H as [H _].
    apply bytes_eqb_eq. apply (implb_ok _ _ H). apply bytes_eqb_eq. exact Hn.
  - intros q d s0 s1 t w0 w1 Hq S0 S1 C0 C1. apply nodes_under in Hq. specialize (H _ Hq).
    destruct (pairs_of E k0 k1 len (q ++ [d])) as [[u0 u1]|] eqn:Hp.
    + apply andb_true_iff in H. destruct H as [_ H]. rewrite removelast_last, (pairs_of_ok _ _ _ _ _ _ _ S0 S1) in H. apply andb_true_iff in H. destruct H as [_ H].
      rewrite last_last, C0, C1 in H. apply fvals_inj. apply (list_eqb_eq _ HZ). apply (implb_ok _ _ H). apply bytes_eqb_refl.
    + discriminate.
Qed.
Definition both_b (paths : list (list bool)) : bool :=
  forallb (fun path => negb (path_eqb path []) && forallb (fun n => existsb (path_eqb (firstn n path ++ [negb (nth n path false)])) (nodes_of paths)) (seq 0 (length path))) paths.
Lemma both_b_ok paths : both_b paths = true -> forall a, In a paths -> a <> [] /\ both_sides paths a.
Proof.
  intros H a Ha. unfold both_b in H. rewrite forallb_forall in H. specialize (H a Ha). apply andb_true_iff in H. destruct H as [Hn H]. split.
  - intros ->. discriminate.
  - rewrite forallb_forall in H. intros q d Hp. apply is_prefix_exists in Hp. destruct Hp as [s ->].
    specialize (H (length q)). rewrite !app_length in H. cbn [length] in H. specialize (H ltac:(apply in_seq; lia)).
    rewrite <- app_assoc, firstn_app, Nat.sub_diag, firstn_all, app_nil_r in H. rewrite app_nth2, Nat.sub_diag in H by lia. cbn [app nth] in H.
    apply existsb_exists in H. destruct H as (x & Hx & He). apply path_eqb_eq in He. rewrite He. apply nodes_under. exact Hx.
Qed.
Definition typed_b (k : vidpf_key) : bool :=
  (length (root_seed k) =? 16) && forallb (fun cw => length (cw_seed cw) =? 16) (cor_words k) && forallb (fun c => length c =? 16) (cs k).
Lemma typed_b_ok k : typed_b k = true -> key_typed k.
Proof.
  unfold typed_b. rewrite !andb_true_iff, !forallb_forall. intros [[A B] C]. split; [apply Nat.eqb_eq; exact A|].
  split; intros x Hx; apply Nat.eqb_eq; [apply B|apply C]; exact Hx.
Qed.
(** the report passes, its keys differ in the root seed and index only, and the weights are those of bucket m *)
Definition honest_b (E : env) (len : nat) (attrs : list (list bool)) (k0 k1 : vidpf_key) (m : nat) : bool :=
  typed_b k0 && typed_b k1 && negb (key_idx k0) && key_idx k1 && free_b E k0 k1 len (nodes_of attrs) &&
  forallb (fun path => forallb (fun i => negb (bytes_eqb (nth i (cs k0) []) zero16)) (seq 0 (length path))) attrs &&
  (m <? len) &&
  match eval_tree E k0 attrs len [], eval_tree E k1 attrs len [] with
  | Ret (_, b0, t0), Ret (_, b1, t1) => bytes_eqb t0 t1 && list_eqb Z.eqb (fvals (vec_add b0 b1)) (fvals (one_hot len m))
  | _, _ => false
  end.
Lemma honest_b_ok E len attrs n0 k0 p0 j0 n1 k1 p1 j1 m w : same_public k0 k1 -> honest_b E len attrs k0 k1 m = true ->
  well_checked E len attrs (RSMastic n0 k0 p0 j0, RSMastic n1 k1 p1 j1) w.
Proof.
  intros Hpub H. unfold honest_b in H. rewrite !andb_true_iff in H. destruct H as [[[[[[[T0 T1] I0] I1] Hf] Hz] Hm] Ht].
  exists n0, k0, p0, j0, n1, k1, p1, j1. split; [reflexivity|]. split; [apply typed_b_ok; exact T0|]. split; [apply typed_b_ok; exact T1|].
  split; [apply negb_true_iff; exact I0|]. split; [exact I1|]. split; [exact Hpub|]. split; [|split; [apply free_b_ok; exact Hf|]].
  - rewrite forallb_forall in Hz. intros path i Hin Hi Hc. specialize (Hz path Hin). rewrite forallb_forall in Hz. specialize (Hz i ltac:(apply in_seq; lia)).
    rewrite Hc in Hz. discriminate.
  - intros v0 b0 t0 v1 b1 t1 H0 H1. rewrite H0, H1 in Ht. apply andb_true_iff in Ht. destruct Ht as [Ht Hb]. apply bytes_eqb_eq in Ht. split; [auto|].
    intros _. exists m. split; [apply Nat.ltb_lt; exact Hm|]. apply fvals_inj. apply (list_eqb_eq _ Z.eqb_eq). exact Hb.
Qed.

(** *** the three honest uploads of C57_example; the attributes cover the whole tree *)
Definition o_attrs : list (list bool) := [[true; false; true]; [true; false; false]; [true; true]; [false; true]; [false; false]].
Definition o_run (R : list (report_share * report_share)) : option (list (list (list bool * list fld))) :=
  let s0 := fst (handle tx (fst (handle tx (fst w_servers) (QReset ex_vk 2))) (QAddReportShares (map fst R))) in
  let s1 := fst (handle tx (fst (handle tx (snd w_servers) (QReset ex_vk 2))) (QAddReportShares (map snd R))) in
  match run_abm tx (cfg2 2 3 1) s0 s1 o_attrs 3 with Ret (_, _, ts) => Some ts | Panic _ => None end.
Definition cw_eqb (a b : cor_word) : bool :=
  bytes_eqb (cw_seed a) (cw_seed b) && Bool.eqb (fst (cw_bits a)) (fst (cw_bits b)) && Bool.eqb (snd (cw_bits a)) (snd (cw_bits b)) && list_eqb Z.eqb (fvals (cw_word a)) (fvals (cw_word b)).
Lemma cw_eqb_ok a b : cw_eqb a b = true -> a = b.
Proof.
  destruct a as [sa [xa ya] wa], b as [sb [xb yb] wb]. unfold cw_eqb. cbn [cw_seed cw_bits cw_word fst snd]. rewrite !andb_true_iff. intros [[[A B] C] D].
  apply bytes_eqb_eq in A. apply eqb_prop in B, C. apply (list_eqb_eq _ Z.eqb_eq) in D. apply fvals_inj in D. congruence.
Qed.
Lemma list_eqb_le {A} (eqb : A -> A -> bool) (H : forall a b, eqb a b = true -> a = b) l : forall l', list_eqb eqb l l' = true -> l = l'.
Proof. induction l as [|x l IH]; intros [|y l'] Hl; try discriminate; [reflexivity|]. cbn in Hl. apply andb_true_iff in Hl. destruct Hl as [Hx Hl]. f_equal; [apply H; exact Hx|apply IH; exact Hl]. Qed.
Definition report_b (E : env) (len : nat) (attrs : list (list bool)) (r : report_share * report_share) (m : nat) : bool :=
  match r with
  | (RSMastic _ k0 _ _, RSMastic _ k1 _ _) => list_eqb cw_eqb (cor_words k0) (cor_words k1) && list_eqb bytes_eqb (cs k0) (cs k1) && honest_b E len attrs k0 k1 m
  | _ => false
  end.
Lemma report_b_ok E len attrs r m w : report_b E len attrs r m = true -> well_checked E len attrs r w.
Proof.
  destruct r as [[n0 k0 p0 j0|] [n1 k1 p1 j1|]]; try discriminate. cbn [report_b]. rewrite !andb_true_iff. intros [[Hw Hc] Hh].
  eapply honest_b_ok; [|exact Hh]. split; [apply (list_eqb_le _ cw_eqb_ok); exact Hw|]. apply (list_eqb_le _ (fun a b => proj1 (bytes_eqb_eq a b))). exact Hc.
Qed.
Lemma o_good : forall r w, In r a_shares -> well_checked tx 2 o_attrs r w.
Proof.
  assert (Hb : forallb (fun r => existsb (report_b tx 2 o_attrs r) [0; 1]) a_shares = true) by (vm_cast_no_check (eq_refl true)).
  intros r w Hr. rewrite forallb_forall in Hb. specialize (Hb r Hr). apply existsb_exists in Hb. destruct Hb as (m & _ & Hm). eapply report_b_ok. exact Hm.
Qed.
(** the same with the first report replaced by one that puts one half on 101 and one half on 100 *)
Definition o_forged : list (report_share * report_share) :=
  match a_shares with
  | (r0, r1) :: rest =>
      let k i := s_key [Some true; Some false; None] (one_hot 2 1) (root_seed (key_of r0)) i in
      (with_key (k false) r0, with_key (k true) r1) :: rest
  | [] => []
  end.
Definition o_check : bool :=
  both_b o_attrs &&
  abm_eqb (o_run a_shares) [[([true; false; true], [1; 1]); ([true; false; false], [0; 0]); ([true; true], [0; 0]); ([false; true], [0; 0]); ([false; false], [0; 1])]]%Z &&
  (let h := fval (half (of_Z 1)) in
   abm_eqb (o_run o_forged) [[([true; false; true], [1; h]); ([true; false; false], [0; h]); ([true; true], [0; 0]); ([false; true], [0; 0]); ([false; false], [0; 1])]]%Z).
Lemma o_example : (forall a, In a o_attrs -> a <> [] /\ both_sides o_attrs a) /\ (forall r w, In r a_shares -> well_checked tx 2 o_attrs r w) /\ o_check = true.
Proof. split; [apply both_b_ok; reflexivity|]. split; [exact o_good|]. vm_cast_no_check (eq_refl true). Qed.
