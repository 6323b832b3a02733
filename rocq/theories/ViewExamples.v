(** Concrete cases for C82, threshold 2: clients with the strings 101, 101 and 001, and others with 101, 101, 011 and other weights. *)
From Verif Require Import Base BaseFacts Field Util Env Prg Vidpf Merkle Collect Server Driver SpecVidpf SpecTree SpecLevel SpecWhh SpecPrg Sched System SpecView CollectFacts CollectInv WhhMain ViewFacts
  RefEnv ToyEnv ExRun DriverPropFacts WhhExamples.

(** what an aggregator is asked in the run of C22_example: five uploads of which the last is rejected *)
Definition vi_script : list request :=
  [QTreeInit; QRunFlpQueries 0 2; QRunFlpQueries 2 4; QRunFlpQueries 4 5; QApplyFlpResults [true; true; true; true; false];
   QTreeCrawl 1 [] false; QTreePrune [false; true]; QTreeCrawl 1 [] false; QTreePrune [true; false];
   QTreeCrawlLast; QGetProofs 0 2; QGetProofs 2 4; QGetProofs 4 5; QTreePrune [false; true]; QFinalShares].
Lemma vi_script_ok : script (cfg_query_batch (cfg2 2 2 2)) 3 (map counts w_choices) (popular 2 (ballots w_clients w_choices)) = vi_script.
Proof. reflexivity. Qed.

Definition vi_clients : list client := [ex_client 0 [true; false; true] 0; ex_client 1 [true; false; true] 0; ex_client 2 [false; true; true] 0].
Definition vi_reports : list plaintext_report := match mapM (gen_report tx 2) vi_clients with Ret l => l | Panic _ => [] end.
Lemma vi_reports_ret : mapM (gen_report tx 2) vi_clients = Ret vi_reports.
Proof.
  unfold vi_reports. assert (H : match mapM (gen_report tx 2) vi_clients with Ret _ => true | Panic _ => false end = true) by (vm_cast_no_check (eq_refl true)).
  destruct (mapM (gen_report tx 2) vi_clients); [reflexivity|discriminate].
Qed.
Lemma vi_clients_good : Forall (good_client tx 2 3 ex_vk) vi_clients.
Proof. repeat (apply Forall_cons; [split; [reflexivity|split; [reflexivity|split; [reflexivity|apply toy_complete; cbn; lia]]]|]). constructor. Qed.
Definition vi_choices : list choice := honest_choices [0; 1; 2].
Lemma vi_choices_good reports : length reports = 3 -> Forall (good_choice tx 2 ex_vk reports) vi_choices.
Proof.
  intros Hl. assert (Hg : forall ch, ch_idx ch <? 3 = true -> counts ch = true -> good_choice tx 2 ex_vk reports ch).
  { intros ch Hi Hc. split; [rewrite Hl; apply Nat.ltb_lt; exact Hi|]. rewrite Hc. discriminate. }
  unfold vi_choices. cbn [honest_choices map]. repeat (apply Forall_cons; [apply Hg; reflexivity|]). constructor.
Qed.
(** the entries of the two runs *)
Definition vi_L (clients : list client) (reports : list plaintext_report) : list entry := map (entry_of 2 clients reports) vi_choices.
Lemma vi_entries clients reports : mapM (gen_report tx 2) clients = Ret reports -> Forall (good_client tx 2 3 ex_vk) clients -> length clients = 3 ->
  Forall (good_entry tx 2 3) (vi_L clients reports) /\ Forall (fun e => report_verdict tx 2 ex_vk (e_r0 e) (e_r1 e) (e_ok e)) (vi_L clients reports).
Proof.
  intros Hr Hc Hl. assert (Hg : Forall (good_choice tx 2 ex_vk reports) vi_choices) by (apply vi_choices_good; rewrite (mapM_length _ _ _ Hr); exact Hl).
  split; [apply (entries_good tx (toy_env_ok true true) 2 3 ex_vk clients reports)|apply (entries_verdict tx (toy_env_ok true true) 2 3 ex_vk clients reports)]; try assumption; lia.
Qed.
Lemma vi_heavy clients reports p : mapM (gen_report tx 2) clients = Ret reports -> Forall (good_client tx 2 3 ex_vk) clients -> length clients = 3 ->
  heavy 2 (vi_L clients reports) p = popular 2 (ballots clients vi_choices) p.
Proof.
  intros Hr Hc Hl. assert (Hg : Forall (good_choice tx 2 ex_vk reports) vi_choices) by (apply vi_choices_good; rewrite (mapM_length _ _ _ Hr); exact Hl).
  apply (heavy_popular tx (toy_env_ok true true) 2 3 ex_vk clients reports); try assumption; lia.
Qed.
Lemma vi_same_heavy p : length p <= 3 -> heavy 2 (vi_L w_clients w_reports) p = heavy 2 (vi_L vi_clients vi_reports) p.
Proof.
  intros Hp. rewrite (vi_heavy _ _ p w_reports_ret w_clients_good eq_refl), (vi_heavy _ _ p vi_reports_ret vi_clients_good eq_refl).
  destruct p as [|a [|b [|c [|d p]]]]; [reflexivity|destruct a; reflexivity|destruct a, b; reflexivity|destruct a, b, c; reflexivity|cbn in Hp; lia].
Qed.
Definition vi_server (id : Z) (rs : list report_share) : server := fst (handle_all tx (server_start id (Some 3) 2) [QReset ex_vk 2; QAddReportShares rs]).
Lemma vi_uploaded (first : bool) rs : uploaded first 2 3 ex_vk rs (vi_server (if first then 0%Z else 1%Z) rs).
Proof. destruct first; unfold uploaded, vi_server; cbn [handle_all handle server_start]; cbn; rewrite add_reports_spec; do 5 (split; [reflexivity|]); reflexivity. Qed.
Definition vi_asked (clients : list client) (reports : list plaintext_report) : list (request * request) :=
  asked tx (run_whh_p 20 tx (cfg2 2 2 2) (length (vi_L clients reports))) (vi_server 0 (map e_r0 (vi_L clients reports))) (vi_server 1 (map e_r1 (vi_L clients reports))).
Lemma vi_ok clients reports : map e_ok (vi_L clients reports) = [true; true; true].
Proof. reflexivity. Qed.
Lemma vi_some clients reports : existsb e_ok (vi_L clients reports) = true.
Proof. reflexivity. Qed.
Lemma vi_length clients reports : length (vi_L clients reports) = 3.
Proof. reflexivity. Qed.
Lemma vi_hypotheses : map e_ok (vi_L w_clients w_reports) = map e_ok (vi_L vi_clients vi_reports) /\ existsb e_ok (vi_L w_clients w_reports) = true /\
  (forall l, 1 <= l -> l + 1 < 3 -> exists p, length p = l /\ heavy (threshold (cfg2 2 2 2)) (vi_L w_clients w_reports) p = true).
Proof.
  split; [rewrite !vi_ok; reflexivity|]. split; [apply vi_some|]. intros l H1 H2. assert (l = 1) by lia. subst l. exists [true]. split; [reflexivity|].
  change (threshold (cfg2 2 2 2)) with 2%Z. rewrite (vi_heavy _ _ _ w_reports_ret w_clients_good eq_refl). reflexivity.
Qed.
Lemma vi_same : vi_asked w_clients w_reports = vi_asked vi_clients vi_reports.
Proof.
  destruct vi_hypotheses as (H1 & H2 & H3). destruct (vi_entries _ _ w_reports_ret w_clients_good eq_refl) as [G V]. destruct (vi_entries _ _ vi_reports_ret vi_clients_good eq_refl) as [G' V'].
  apply (same_view tx 2 3 (vi_L w_clients w_reports) (vi_L vi_clients vi_reports) ex_vk ex_vk);
    [exact (toy_env_ok true true)|exact G|exact G'|rewrite vi_length; lia|reflexivity|reflexivity|cbn; lia|lia|rewrite vi_length; lia|rewrite vi_length; lia|
     apply (vi_uploaded true)|apply (vi_uploaded false)|apply (vi_uploaded true)|apply (vi_uploaded false)|exact H2|exact V|exact V'|exact H3|exact H1|exact vi_same_heavy].
Qed.
Lemma vi_short_ok : short_script 2 1 (map counts w_choices) (popular 5 (ballots w_clients w_choices)) =
  [QTreeInit; QRunFlpQueries 0 2; QRunFlpQueries 2 4; QRunFlpQueries 4 5; QApplyFlpResults [true; true; true; true; false];
   QTreeCrawl 1 [] false; QTreePrune [false; false]; QTreeCrawl 1 [] false].
Proof. reflexivity. Qed.
Lemma vi_both : map cl_alpha w_clients <> map cl_alpha vi_clients /\ map cl_bucket w_clients <> map cl_bucket vi_clients /\
  map e_ok (vi_L w_clients w_reports) = map e_ok (vi_L vi_clients vi_reports) /\
  (forall p, length p <= 3 -> heavy 2 (vi_L w_clients w_reports) p = heavy 2 (vi_L vi_clients vi_reports) p) /\
  vi_asked w_clients w_reports = vi_asked vi_clients vi_reports.
Proof. split; [discriminate|]. split; [discriminate|]. split; [apply vi_hypotheses|]. split; [exact vi_same_heavy|]. exact vi_same. Qed.
Succeed Definition by_computation := (eq_refl 13 <: length (vi_asked vi_clients vi_reports) = 13).
