(** Concrete cases for C59. *)
From Verif Require Import Base Field Util Env Prg Vidpf Merkle Collect Server Driver SpecTwo SpecDriver RefEnv ExRun ToyEnv WhhExamples CollectPropFacts.

(** two drivers with one report each *)
Definition two_a : list (report_share * report_share) := map to_shares (firstn 1 w_reports).
Definition two_b : list (report_share * report_share) := map to_shares (firstn 1 (skipn 1 w_reports)).
Definition two_held (id : Z) (first : bool) (p : list bool) : list bytes :=
  map rs_nonce (held_shares (fst (handle_all tx (server_start id (Some 3) 2)
    (weave p (map (upload_to first) (map (fun r => [r]) two_a)) (map (upload_to first) (map (fun r => [r]) two_b)))))).
Definition two_check : bool :=
  list_eqb bytes_eqb (two_held 0 true [true; false]) (two_held 1 false [true; false]) &&
  negb (bytes_eqb (nth 0 (two_held 0 true [true; false]) []) (nth 0 (two_held 1 false [false; true]) [])) &&
  (length (two_held 1 false [false; true]) =? 2).
Lemma two_ok : two_check = true. Proof. vm_cast_no_check (eq_refl true). Qed.
Definition two_later : bool :=
  (let '(s, l) := ex_run tx 0 1 [QReset ex_vk 2; QRunFlpQueries 0 1; QReset ex_vk 2] in
   s_poison s && list_eqb Bool.eqb (map is_ret l) [true; true; true; true; false; false]) &&
  (let '(s, l) := ex_run tx 0 1 [QAddReportShares (map fst two_a); QRunFlpQueries 0 1; QReset ex_vk 2] in
   s_poison s && list_eqb Bool.eqb (map is_ret l) [true; true; true; true; false; false]).
Lemma two_later_ok : two_later = true. Proof. vm_cast_no_check (eq_refl true). Qed.
