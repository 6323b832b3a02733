(** Concrete cases for the properties of PropWhh. *)
From Verif Require Import Base BaseFacts Field Util Env Prg Vidpf Merkle Collect Server Driver SpecVidpf SpecLevel SpecWhh WhhFacts FlpFacts VidpfPropFacts RefEnv ToyEnv ExRun DriverPropFacts RefuteExamples.

Definition tx : env := toy_env true true.

(** *** the FLP stand-in is complete *)
Lemma sum_const (l : list nat) f : (forall x, In x l -> fval (f x) = 0%Z) -> fold_right (fun x s => (fval x + s)%Z) 0%Z (map f l) = 0%Z.
Proof. induction l as [|a l IH]; intros H; [reflexivity|]. cbn [map fold_right]. rewrite (H a (or_introl eq_refl)), IH by (intros; apply H; right; assumption). reflexivity. Qed.
Lemma one_hot_sum : forall len start m, start <= m < start + len ->
  fold_right (fun x s => (fval x + s)%Z) 0%Z (map (fun i => if i =? m then fone else fzero) (seq start len)) = 1%Z.
Proof.
  induction len as [|len IH]; intros start m Hm; [lia|]. cbn [seq map fold_right]. destruct (start =? m) eqn:Hs.
  - apply Nat.eqb_eq in Hs. subst. rewrite sum_const; [reflexivity|]. intros x Hx. apply in_seq in Hx. rewrite (proj2 (Nat.eqb_neq _ _)) by lia. reflexivity.
  - apply Nat.eqb_neq in Hs. rewrite IH by lia. reflexivity.
Qed.
Lemma one_hot_is len m : m < len -> is_one_hot (one_hot len m) = true.
Proof.
  intros Hm. unfold is_one_hot, one_hot. rewrite one_hot_sum by lia. rewrite andb_true_r. apply forallb_forall. intros x Hx. apply in_map_iff in Hx.
  destruct Hx as (i & <- & _). destruct (i =? m); reflexivity.
Qed.
Lemma add_shares_app : forall a b x, shares_of a b x -> forall p q y, shares_of p q y -> add_shares (a ++ p) (b ++ q) = x ++ y.
Proof.
  induction a as [|u a IH]; intros [|v b] [|z x] (Ha & Hb & Hs) p q y Hy; try discriminate.
  - cbn [app]. destruct Hy as (Hp & Hq & Hs2). clear - Hp Hq Hs2. revert q y Hp Hq Hs2. induction p as [|u p IH]; intros [|v q] [|z y] Hp Hq Hs; try discriminate; [reflexivity|].
    unfold add_shares. cbn [combine map fst snd]. pose proof (Hs 0 u v eq_refl eq_refl) as H0. cbn in H0. injection H0 as <-. f_equal.
    apply IH; [cbn in Hp; lia|cbn in Hq; lia|]. intros i. apply (Hs (S i)).
  - cbn [app]. unfold add_shares. cbn [combine map fst snd]. pose proof (Hs 0 u v eq_refl eq_refl) as H0. cbn in H0. injection H0 as <-. f_equal.
    apply IH; [|exact Hy]. split; [cbn in Ha; lia|]. split; [cbn in Hb; lia|]. intros i. apply (Hs (S i)).
Qed.
Lemma toy_complete len m prove_rand joint query : m < len -> flp_complete tx len (one_hot len m) prove_rand joint query.
Proof.
  intros Hm proof b0 b1 p0 p1 Hp Hb Hq. cbn in Hp. injection Hp as <-.
  pose proof (one_hot_length len m) as Hl. pose proof Hb as (L0 & L1 & _). pose proof Hq as (Q0 & Q1 & _). rewrite Hl in L0, L1.
  exists (b0 ++ p0), (b1 ++ p1). cbn [tx toy_env flp_query flp_decide]. unfold ref_query. rewrite L0, L1, Q0, Q1, Nat.eqb_refl. cbn [length Nat.eqb andb].
  split; [reflexivity|]. split; [reflexivity|]. rewrite (add_shares_app _ _ _ Hb _ _ _ Hq). unfold ref_decide. rewrite app_length, Hl. cbn [length].
  rewrite Nat.eqb_refl, firstn_app, Hl, Nat.sub_diag. cbn [firstn]. rewrite app_nil_r, firstn_all2 by lia. rewrite (one_hot_is _ _ Hm), app_nth2, Hl, Nat.sub_diag by lia. reflexivity.
Qed.

(** *** a run: four clients, three-bit strings, two buckets; the last upload has a spoilt proof and the
    one before pretends to spoil its key *)
Definition w_clients : list client := [ex_client 0 [true; false; true] 1; ex_client 1 [true; false; true] 0; ex_client 2 [false; false; true] 1].
Definition w_choices : list choice := honest_choices [0; 1; 2] ++ [bad_vidpf 0; bad_flp 1].
Definition w_reports : list plaintext_report := match mapM (gen_report tx 2) w_clients with Ret l => l | Panic _ => [] end.
Definition verdict_of (E : env) (len : nat) (vk : bytes) (r0 r1 : report_share) : option bool :=
  match verifier_share E true len vk r0, verifier_share E false len vk r1 with
  | Some v0, Some v1 => flp_decide E len (add_shares v0 v1)
  | _, _ => None
  end.
Lemma verdict_of_ok E len vk r0 r1 b : verdict_of E len vk r0 r1 = Some b -> report_verdict E len vk r0 r1 b.
Proof.
  unfold verdict_of, report_verdict. destruct (verifier_share E true len vk r0) as [v0|]; [|discriminate].
  destruct (verifier_share E false len vk r1) as [v1|]; [|discriminate]. intros H. exists v0, v1. auto.
Qed.
Definition bad_ok (E : env) len vk reports ch : bool :=
  match make_upload reports ch with
  | Ret (r0, r1) => match verdict_of E len vk r0 r1 with Some b => negb b | None => false end
  | Panic _ => false
  end.
Lemma bad_ok_ok E len vk reports ch : bad_ok E len vk reports ch = true -> exists r0 r1, make_upload reports ch = Ret (r0, r1) /\ report_verdict E len vk r0 r1 false.
Proof.
  unfold bad_ok. destruct (make_upload reports ch) as [[r0 r1]|]; [|discriminate]. destruct (verdict_of E len vk r0 r1) as [[|]|] eqn:Hv; try discriminate.
  intros _. exists r0, r1. split; [reflexivity|]. apply verdict_of_ok. exact Hv.
Qed.

Lemma w_reports_ret : mapM (gen_report tx 2) w_clients = Ret w_reports.
Proof.
  unfold w_reports. assert (H : match mapM (gen_report tx 2) w_clients with Ret _ => true | Panic _ => false end = true) by (vm_cast_no_check (eq_refl true)).
  destruct (mapM (gen_report tx 2) w_clients); [reflexivity|discriminate].
Qed.
Lemma w_clients_good : Forall (good_client tx 2 3 ex_vk) w_clients.
Proof. repeat (apply Forall_cons; [split; [reflexivity|split; [reflexivity|split; [reflexivity|apply toy_complete; cbn; lia]]]|]). constructor. Qed.
Lemma w_choices_good : Forall (good_choice tx 2 ex_vk w_reports) w_choices.
Proof.
  assert (Hl : length w_reports = 3) by (vm_cast_no_check (eq_refl 3)).
  assert (Hg : forall ch, ch_idx ch <? 3 = true -> counts ch = true -> good_choice tx 2 ex_vk w_reports ch).
  { intros ch Hi Hc. split; [rewrite Hl; apply Nat.ltb_lt; exact Hi|]. rewrite Hc. discriminate. }
  unfold w_choices. cbn [honest_choices map app].
  apply Forall_cons; [apply Hg; reflexivity|]. apply Forall_cons; [apply Hg; reflexivity|]. apply Forall_cons; [apply Hg; reflexivity|].
  apply Forall_cons; [apply Hg; reflexivity|]. apply Forall_cons; [|apply Forall_nil].
  split; [rewrite Hl; apply Nat.ltb_lt; reflexivity|]. intros _. apply bad_ok_ok. vm_cast_no_check (eq_refl true).
Qed.
Definition w_cfg (thr : Z) : config := cfg_n 3 thr.
Definition w_servers : server * server := (server_start 0 (Some 3) 2, server_start 1 (Some 3) 2).
(** the FLP phase after uploading [w_choices], with the given batch size *)
Definition w_keep (batch : nat) : option (list bool) :=
  let cfg := cfg2 2 batch 1 in
  match (let! '(s0, s1) := reset_servers tx cfg ex_vk (fst w_servers) (snd w_servers) in
         let! '(s0, s1) := upload 20 tx cfg w_reports w_choices s0 s1 in
         let! '(s0, s1) := call2_done tx s0 s1 QTreeInit QTreeInit in
         flp_loop 20 tx cfg s0 s1 5 0 []) with
  | Ret (_, _, keep) => Some keep
  | Panic _ => None
  end.
Definition obools_eqb (a b : option (list bool)) : bool :=
  match a, b with Some x, Some y => bools_eqb x y | None, None => true | _, _ => false end.
Lemma bools_eqb_ok : forall a b, bools_eqb a b = true -> a = b.
Proof.
  induction a as [|x a IH]; intros [|y b] H; try discriminate; [reflexivity|]. unfold bools_eqb in H. cbn [list_eqb] in H. apply andb_prop in H. destruct H as [H1 H2].
  apply eqb_prop in H1. subst. f_equal. apply IH. exact H2.
Qed.
Lemma obools_eqb_ok a b : obools_eqb a b = true -> a = b.
Proof. destruct a, b; try discriminate; [|reflexivity]. intros H. f_equal. apply bools_eqb_ok. exact H. Qed.
Lemma w_keep_ok : w_keep 2 = Some [true; true; true; true; false] /\ w_keep 3 = Some [true; true; true; true; false] /\
  forall m pr jr qr, m < 2 -> flp_complete tx 2 (one_hot 2 m) pr jr qr.
Proof.
  split; [apply obools_eqb_ok; vm_cast_no_check (eq_refl true)|]. split; [apply obools_eqb_ok; vm_cast_no_check (eq_refl true)|].
  intros. apply toy_complete. assumption.
Qed.

(** the whole program *)
Definition w_run (clients : list client) (choices : list choice) (thr : Z) : option (list (list bool * list Z)) :=
  match main_whh 20 tx (w_cfg thr) clients ex_vk choices (fst w_servers) (snd w_servers) with
  | Ret (_, _, l) => Some (map (fun r => (res_path r, map fval (res_value r))) l)
  | Panic _ => None
  end.
Definition w_result (thr : Z) := w_run w_clients w_choices thr.
Definition w_light := w_run [ex_client 0 [true; false; true] 1; ex_client 1 [true; false; false] 0] (honest_choices [0; 1]) 2.
Definition zs_eqb (a b : option (list (list bool * list Z))) : bool :=
  match a, b with
  | Some x, Some y => list_eqb (fun u v => path_eqb (fst u) (fst v) && list_eqb Z.eqb (snd u) (snd v)) x y
  | None, None => true | _, _ => false end.
Lemma list_eqb_ok {A} (e : A -> A -> bool) (He : forall x y, e x y = true -> x = y) : forall a b, list_eqb e a b = true -> a = b.
Proof. induction a as [|x a IH]; intros [|y b] H; try discriminate; [reflexivity|]. cbn [list_eqb] in H. apply andb_prop in H. destruct H as [H1 H2]. f_equal; auto. Qed.
Lemma zs_eqb_ok a b : zs_eqb a b = true -> a = b.
Proof.
  destruct a, b; try discriminate; [|reflexivity]. intros H. f_equal. revert H. apply list_eqb_ok. intros [p u] [q v] H. apply andb_prop in H. destruct H as [H1 H2]. cbn in H1, H2.
  f_equal; [apply (list_eqb_ok Bool.eqb); [intros; apply eqb_prop; assumption|exact H1]|apply (list_eqb_ok Z.eqb); [intros; apply Z.eqb_eq; assumption|exact H2]].
Qed.
Lemma w_result_ok :
  mapM (gen_report tx 2) w_clients = Ret w_reports /\ Forall (good_client tx 2 3 ex_vk) w_clients /\ Forall (good_choice tx 2 ex_vk w_reports) w_choices /\
  popular 2 (ballots w_clients w_choices) [true] = true /\
  w_result 2 = Some [([true; false; true], [1; 2; 3])]%Z /\
  w_result 1 = Some [([false; false; true], [0; 1; 1]); ([true; false; true], [1; 2; 3])]%Z.
Proof.
  split; [exact w_reports_ret|]. split; [exact w_clients_good|]. split; [exact w_choices_good|]. split; [reflexivity|].
  split; apply zs_eqb_ok; vm_cast_no_check (eq_refl true).
Qed.
Lemma w_light_ok : w_result 5 = None /\ w_light = Some [].
Proof. split; apply zs_eqb_ok; vm_cast_no_check (eq_refl true). Qed.

(** *** verification strings of three reports, the second one with a changed key *)
Definition spoil_seed (r : report_share) : report_share :=
  match r with
  | RSMastic n k p j => RSMastic n {| key_idx := key_idx k; root_seed := update 0 (N.lxor (hd 0%N (root_seed k)) 64) (root_seed k); cor_words := cor_words k; cs := cs k |} p j
  | x => x
  end.
Definition w_side (id : Z) : list report_share :=
  match map (fun r => ex_side id (to_shares r)) w_reports with
  | [a; b; c] => [a; if (id =? 0)%Z then b else spoil_seed b; c]
  | _ => []
  end.
Definition w_server (id : Z) (qs : list request) : server :=
  fst (handle_all tx (server_start id (Some 3) 2) ([QReset ex_vk 2; QAddReportShares (w_side id); QTreeInit] ++ qs)).
Definition w_string (id : Z) (qs : list request) (level i : nat) : outcome bytes :=
  let c := s_coll (w_server id qs) in
  let! next := crawl_children tx c false in
  let! checks := y_checks tx c level next in
  client_hash tx c level next checks i.
Definition w_same (qs : list request) (level : nat) : list bool :=
  map (fun i => ob_eqb (w_string 0 qs level i) (w_string 1 qs level i)) [0; 1; 2].
Definition w_strings : list bool * list bool := (w_same [] 0, w_same [QTreeCrawl 1 [] false; QTreePrune [true; true]] 1).
Lemma w_strings_ok : w_strings = ([true; false; true], [true; false; true]).
Proof. vm_compute. reflexivity. Qed.
