(** Concrete cases for the properties of PropModes. *)
From Verif Require Import Base BaseFacts Field Util Env Prg Vidpf Merkle Collect Server Driver Modes SpecVidpf SpecLevel SpecWhh SpecMetrics SpecModes
  WhhFacts FlpFacts VidpfPropFacts RefEnv ToyEnv ExRun DriverPropFacts RefuteExamples WhhExamples MetricsExamples.
From Coq Require Import Permutation.

(** *** attribute-based metrics: the clients and uploads of WhhExamples, batches of two, the strings of
    clients 1 and 2 as attributes *)
Lemma tx_fixed : fixed_verifier_len tx 2.
Proof.
  exists 3. intros b p q j v. cbn [tx toy_env flp_query]. unfold ref_query. destruct (length b =? 2) eqn:Hb; [|discriminate]. destruct (length p =? 1) eqn:Hp; [|discriminate].
  cbn [andb]. intros H. injection H as <-. apply Nat.eqb_eq in Hb, Hp. rewrite app_length. lia.
Qed.
Definition m_tables (E : env) : option (list (list (list bool * list fld))) :=
  match main_abm 20 E (cfg2 2 2 1) w_clients ex_vk w_choices [1; 2; 1] (@rev (list bool)) (fst w_servers) (snd w_servers) with
  | Ret (_, _, ts) => Some ts
  | Panic _ => None
  end.
Definition abm_eqb (a : option (list (list (list bool * list fld)))) (b : list (list (list bool * list Z))) : bool :=
  match a with
  | Some ts => list_eqb (list_eqb (fun u v => path_eqb (fst u) (fst v) && list_eqb Z.eqb (snd u) (snd v))) (map (map (fun x => (fst x, map fval (snd x)))) ts) b
  | None => false
  end.
Lemma m_example :
  mapM (gen_report tx 2) w_clients = Ret w_reports /\ Forall (good_client tx 2 3 ex_vk) w_clients /\ Forall (good_choice tx 2 ex_vk w_reports) w_choices /\
  fixed_verifier_len tx 2 /\ (forall l : list (list bool), Permutation (rev l) l) /\
  abm_eqb (m_tables tx) [[([true; false; true], [1; 1]); ([false; false; true], [0; 0])];
                         [([true; false; true], [1; 2]); ([false; false; true], [0; 1])];
                         [([true; false; true], [1; 2]); ([false; false; true], [0; 1])]]%Z = true /\
  abm_eqb (m_tables (toy_env false true))
                        [[([true; false; true], [1; 1]); ([false; false; true], [0; 0])];
                         [([true; false; true], [1; 2]); ([false; false; true], [0; 1])];
                         [([true; false; true], [2; 2]); ([false; false; true], [0; 1])]]%Z = true.
Proof.
  split; [exact w_reports_ret|]. split; [exact w_clients_good|]. split; [exact w_choices_good|]. split; [exact tx_fixed|].
  split; [intros l; apply Permutation_sym, Permutation_rev|]. split; vm_cast_no_check (eq_refl true).
Qed.

(** *** plain metrics: three clients, four uploads, the third one spoilt; batches of three *)
Definition p_shard : sharding := fun len m nonce rand => Some ([], (map (fun i => if i =? m then 1%N else 0%N) (seq 0 len), repeat 0%N len)).
Definition p_clients : list pm_client := map (fun m => {| pc_nonce := [1%N]; pc_bucket := m; pc_rand := [] |}) [1; 0; 1].
Definition p_choices : list choice := honest_choices [0; 1] ++ [bad_flp 2] ++ honest_choices [2].
Lemma p_good : Forall (good_pm_choice rx p_shard 2 ex_vk p_clients) p_choices.
Proof.
  assert (Hs : forall ch i0 i1 cl, nth_error p_clients (ch_idx ch) = Some cl -> pc_bucket cl <? 2 = true -> pc_nonce cl = [1%N] -> p_shard 2 (pc_bucket cl) (pc_nonce cl) (pc_rand cl) = Some ([], (i0, i1)) ->
     length i0 = 2 -> length i1 = 2 -> p3_msg rx 2 i0 (if ch_malicious ch then spoil i1 else i1) = (if ch_malicious ch then None else Some []) ->
     (ch_malicious ch = false -> vec_add (map of_N i0) (map of_N i1) = one_hot 2 (pc_bucket cl)) -> good_pm_choice rx p_shard 2 ex_vk p_clients ch).
  { intros ch i0 i1 cl Hc Hb Hno Hsh H0 H1 Hm Hv. exists cl, [], i0, i1. split; [exact Hc|]. split; [apply Nat.ltb_lt; exact Hb|]. split; [exact Hsh|].
    split; [intros _ ->; discriminate|]. rewrite Hno. set (i1' := if ch_malicious ch then spoil i1 else i1) in *.
    assert (H1' : length i1' = 2) by (unfold i1'; destruct (ch_malicious ch); [destruct i1; exact H1|exact H1]).
    exists [1%N], [], i0, [1%N], [], i1', i0, i0, i1', i1'. split; [reflexivity|]. split; [reflexivity|].
    cbn [p3_prep_init p3_decode_share rx toy_env]. unfold ref_p3_init, ref_p3_dec. rewrite H0, H1'. do 4 (split; [reflexivity|]).
    destruct (ch_malicious ch); [left; exact Hm|]. subst i1'. exists [], (map of_N i0), (map of_N i1). split; [exact Hm|]. do 2 (split; [reflexivity|]). rewrite !map_length. do 2 (split; [assumption|]).
    split; [unfold one_hot; rewrite map_length, seq_length; reflexivity|]. rewrite <- Hv by reflexivity.
    intros j Hj. destruct i0 as [|a [|b [|]]]; try discriminate. destruct i1 as [|c [|d [|]]]; try discriminate. destruct j as [|[|j]]; [reflexivity|reflexivity|lia]. }
  unfold p_choices. cbn [honest_choices map app].
  repeat (apply Forall_cons; [eapply Hs; try reflexivity; try discriminate; intros _; vm_compute; reflexivity|]). apply Forall_nil.
Qed.
Lemma p_example :
  (forall cl, In cl p_clients -> p_shard 2 (pc_bucket cl) (pc_nonce cl) (pc_rand cl) <> None) /\ Forall (good_pm_choice rx p_shard 2 ex_vk p_clients) p_choices /\
  map (vote_histogram 2) (pieces 3 (pm_votes p_clients p_choices)) = [([1; 1], 1); ([0; 1], 0)]%Z /\
  match main_pm 20 rx p_shard (cfg2 2 3 1) p_clients ex_vk p_choices (server_start 0 None 2) (server_start 1 None 2) with
  | Ret (_, _, ts) => list_eqb (fun a b => list_eqb Z.eqb (fst a) (fst b) && (snd a =? snd b)%Z) ts [([1; 1], 1); ([0; 1], 0)]%Z
  | Panic _ => false end = true.
Proof. split; [discriminate|]. split; [exact p_good|]. split; [reflexivity|]. vm_cast_no_check (eq_refl true). Qed.
