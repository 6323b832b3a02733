(** Property C60 (src/bin/driver.rs:160-186): the shares of the proof do not tell which proof was shared. *)
From Verif Require Import Base Field Util Env Prg Vidpf Merkle Collect Driver SpecHide HideFacts HideExamples.

(** C60: the shares in a report are those of its proof under the client's draws, and nothing else in the
    report depends on the draws. *)
Theorem C60_report : forall E len cl us nonce keys p0 p1 jr alpha,
  gen_report E len (drawing us cl) = Ret (PRMastic nonce keys (p0, p1) jr alpha) -> length us = length p0 ->
  exists proof, length proof = length us /\ (exists beta rand, flp_prove E len beta (cl_prove_rand cl) rand = Some proof) /\
    p0 = share0 us /\ p1 = share1 proof us /\
    forall us', length us' = length us -> gen_report E len (drawing us' cl) = Ret (PRMastic nonce keys (share0 us', share1 proof us') jr alpha).
Proof. exact C60_report_lemma. Qed.
Print Assumptions C60_report.
(** Whatever test an aggregator runs on its share, the number of draws that pass it is the same for every
    proof at aggregator 0, and at aggregator 1 it differs by at most k * doubled * 2^(128(k-1)) of 2^(128k) ... *)
Theorem C60_hiding : forall nonce k0 k1 jr alpha proof proof' (T : report_share -> bool), length proof = length proof' ->
  let view pr us := to_shares (PRMastic nonce (k0, k1) (share0 us, share1 pr us) jr alpha) in
  tally (length proof) (fun us => T (fst (view proof us))) = tally (length proof) (fun us => T (fst (view proof' us))) /\
  (Z.abs (tally (length proof) (fun us => T (snd (view proof us))) - tally (length proof) (fun us => T (snd (view proof' us))))
    <= Z.of_nat (length proof) * doubled * draws ^ (Z.of_nat (length proof) - 1))%Z.
Proof. exact C60_hiding_lemma. Qed.
Print Assumptions C60_hiding.
(** ... that is by less than k parts in 2^59; and no share rules out any proof. *)
Theorem C60_small : (2 ^ 59 * doubled < draws)%Z.
Proof. exact C60_small_lemma. Qed.
Print Assumptions C60_small.
Theorem C60_possible : forall proof s, length proof = length s ->
  (1 <= tally (length proof) (fun us => same (share1 proof us) s) <= 2 ^ Z.of_nat (length proof))%Z.
Proof. exact C60_possible_lemma. Qed.
Print Assumptions C60_possible.
(** The difference is never nothing: u128 values are not reduced evenly, so for any two proofs there is a
    share 2^d times as likely under the first as under the second, d being the number of entries they differ in. *)
Theorem C60_refuted : forall a b, length a = length b ->
  exists s, length s = length a /\ tally (length a) (fun us => same (share1 a us) s) = (2 ^ Z.of_nat (length a))%Z /\
            (tally (length a) (fun us => same (share1 b us) s) * 2 ^ Z.of_nat (differ a b) = 2 ^ Z.of_nat (length a))%Z.
Proof. exact C60_perfect_lemma. Qed.
Print Assumptions C60_refuted.
(** A report and its shares for draws above p; two proofs for C60_refuted. *)
Example C60_example : hide_case && hide_differ = true.
Proof. vm_cast_no_check (eq_refl true). Qed.
