(** Properties C67 and C68 (src/collect.rs, src/bin/server.rs add_report_shares, src/bin/driver.rs): the result
    of weighted heavy hitters depends neither on the order of the uploads nor on repeated uploads. *)
From Verif Require Import Base Field Util Env Prg Vidpf Merkle Collect Server Driver SpecVidpf SpecTree SpecCollect SpecLevel SpecWhh SpecSearch SpecLast SpecRun SpecOrder
  ToyEnv ExRun WhhExamples SearchExamples RunExamples OrderFacts OrderExamples.
From Coq Require Import Permutation.

(** C67: if all accepted reports are honest, then any order of the same reports, with any batch sizes, gives
    the same list of results or the same panic. *)
Theorem C67_order : forall E len bits L L' vk fuel fuel' cfg cfg' s0 s1 s0' s1',
  env_ok E -> Permutation L L' -> Forall (good_entry E len bits) L -> (Z.of_nat (length L) < 2 ^ 64)%Z ->
  cfg_hist cfg = len -> cfg_bits cfg = Some bits -> 0 < cfg_query_batch cfg -> 1 <= bits -> length L <= fuel ->
  cfg_hist cfg' = len -> cfg_bits cfg' = Some bits -> 0 < cfg_query_batch cfg' -> length L <= fuel' -> cfg_thr cfg' = cfg_thr cfg ->
  uploaded true len bits vk (map e_r0 L) s0 -> uploaded false len bits vk (map e_r1 L) s1 ->
  uploaded true len bits vk (map e_r0 L') s0' -> uploaded false len bits vk (map e_r1 L') s1' ->
  (2 <= bits -> existsb e_ok L = true /\ Forall (fun e => report_verdict E len vk (e_r0 e) (e_r1 e) (e_ok e)) L) ->
  (bits = 1 -> forallb e_ok L = true) ->
  visible (run_whh fuel E cfg s0 s1 (length L)) = visible (run_whh fuel' E cfg' s0' s1' (length L')).
Proof. exact order_lemma. Qed.
Print Assumptions C67_order.

(** a higher threshold only drops results: the ones whose total, the last entry, is below it *)
Theorem C67_threshold : forall E len bits L vk fuel fuel' cfg cfg' s0 s1 s0' s1' t0 t1 rs t0' t1' rs',
  env_ok E -> Forall (good_entry E len bits) L -> (Z.of_nat (length L) < 2 ^ 64)%Z ->
  cfg_hist cfg = len -> cfg_bits cfg = Some bits -> 0 < cfg_query_batch cfg -> 1 <= bits -> length L <= fuel ->
  cfg_hist cfg' = len -> cfg_bits cfg' = Some bits -> 0 < cfg_query_batch cfg' -> length L <= fuel' -> (threshold cfg <= threshold cfg')%Z ->
  uploaded true len bits vk (map e_r0 L) s0 -> uploaded false len bits vk (map e_r1 L) s1 ->
  uploaded true len bits vk (map e_r0 L) s0' -> uploaded false len bits vk (map e_r1 L) s1' ->
  (2 <= bits -> existsb e_ok L = true /\ Forall (fun e => report_verdict E len vk (e_r0 e) (e_r1 e) (e_ok e)) L) ->
  (bits = 1 -> forallb e_ok L = true) ->
  run_whh fuel E cfg s0 s1 (length L) = Ret (t0, t1, rs) -> run_whh fuel' E cfg' s0' s1' (length L) = Ret (t0', t1', rs') ->
  rs' = filter (fun r => (threshold cfg' <=? fval (last (res_value r) (of_Z 0)))%Z) rs.
Proof. exact threshold_lemma. Qed.
Print Assumptions C67_threshold.

(** C67 is false with an inconsistent report next to a rejected one: the same four reports lead to a result
    or to a panic depending on their order *)
Theorem C67_refuted : exists E len bits vk cfg fuel R R' s0 s1 s0' s1', env_ok E /\ Permutation R R' /\
  well_formed_pairs bits R /\ flp_flags E len bits vk R /\ cfg_hist cfg = len /\ cfg_bits cfg = Some bits /\ 0 < cfg_query_batch cfg /\ length R + 2 <= fuel /\
  uploaded true len bits vk (map (share_of true) R) s0 /\ uploaded false len bits vk (map (share_of false) R) s1 /\
  uploaded true len bits vk (map (share_of true) R') s0' /\ uploaded false len bits vk (map (share_of false) R') s1' /\
  is_ret (run_whh fuel E cfg s0 s1 (length R)) = true /\ is_ret (run_whh fuel E cfg s0' s1' (length R')) = false.
Proof. exact order_refuted. Qed.
Print Assumptions C67_refuted.

(** honest clients and one spoilt proof in two orders, thresholds 2 and 1 *)
Example C67_example : Permutation o_honest o_honest' /\ r_result o_honest 2 = Some [([true; false; true], [1; 1; 2])]%Z /\ r_result o_honest' 2 = r_result o_honest 2 /\
  r_result o_honest 1 = Some [([false; false; true], [0; 1; 1]); ([true; false; true], [1; 1; 2])]%Z /\ r_result o_honest' 1 = r_result o_honest 1.
Proof. exact o_honest_ok. Qed.
(** three orders of the same reports: the right result, a panic, five strings most of which nobody holds *)
Example C67_refuted_example : (Permutation r_mixed o_second /\ Permutation r_mixed o_third) /\ (r_setting r_mixed 1 /\ r_setting o_second 1 /\ r_setting o_third 1) /\
  r_result r_mixed 1 = Some [([false; false; true], [0; 1; 1]); ([true; false; true], [1; 0; 1])]%Z /\ r_result o_second 1 = None /\ on_eqb (o_length (r_result o_third 1)) (Some 5) = true.
Proof. exact o_mixed_ok. Qed.

(** C68 is false: nothing recognises a report that was uploaded before.  Whatever accepted honest reports L
    there are, one honest report uploaded m times, with m at least the threshold, makes its string a result,
    counted m times. *)
Theorem C68_refuted : forall E len bits L e m vk fuel cfg s0 s1,
  env_ok E -> Forall (good_entry E len bits) (e :: L) -> e_ok e = true ->
  Forall (fun e => report_verdict E len vk (e_r0 e) (e_r1 e) (e_ok e)) (e :: L) ->
  (threshold cfg <= Z.of_nat m)%Z -> (Z.of_nat (length L + m) < 2 ^ 64)%Z ->
  cfg_hist cfg = len -> cfg_bits cfg = Some bits -> 0 < cfg_query_batch cfg -> 2 <= bits -> length L + m <= fuel ->
  uploaded true len bits vk (map e_r0 L ++ copies m (e_r0 e)) s0 -> uploaded false len bits vk (map e_r1 L ++ copies m (e_r1 e)) s1 ->
  exists t0 t1 rs w, run_whh fuel E cfg s0 s1 (length L + m) = Ret (t0, t1, rs) /\
    In {| res_path := e_alpha e; res_value := w ++ [of_Z (count L (e_alpha e) + Z.of_nat m)] |} rs /\ length w = len /\
    forall j, j < len -> nth_error w j = Some (fadd (weight L (e_alpha e) j) (fsum (copies m (nth j (e_beta e) (of_Z 0))))).
Proof. exact replay_lemma. Qed.
Print Assumptions C68_refuted.

(** three clients, threshold 3: no result (a panic, C27); with the report of the third client
    uploaded three times its string is the result *)
Example C68_refuted_example : r_setting o_thrice 3 /\ r_result o_once 3 = None /\ r_result o_thrice 3 = Some [([false; false; true], [0; 3; 3])]%Z.
Proof. exact o_replay_ok. Qed.
