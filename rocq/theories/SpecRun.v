(** Specification vocabulary for complete runs with arbitrary reports: what the levels do to the set of
    remaining reports and to the frontier, with no reference to servers and requests. *)
From Verif Require Import Base Field Util Env Prg Vidpf SpecTree Merkle Collect Server Driver SpecCollect SpecServer SpecLevel SpecWhh SpecSearch SpecLast.

(** One level before the last: the frontier and the reports afterwards, or the panic. *)
Definition level_effect (E : env) (len : nat) (thr : Z) (level : nat) (paths : list (list bool)) (R : list pair) : outcome (list (list bool) * list pair) :=
  if (length paths =? 0) || (length (remaining R) =? 0) then Panic PIndex else
  match bad_ranks E len level paths R with
  | [] => Ret (survivors E len thr R paths, R)
  | bad => if Nat.log2_up (length (remaining R)) <? Nat.log2_up (length R) then Panic PArith else
           let R' := clear_at bad R in
           if length (remaining R') =? 0 then Panic PIndex else Ret (survivors E len thr R' paths, R')
  end.
Fixpoint levels_effect (E : env) (len : nat) (thr : Z) (n level : nat) (paths : list (list bool)) (R : list pair) : outcome (list (list bool) * list pair) :=
  match n with
  | O => Ret (paths, R)
  | S n' => let! '(paths', R') := level_effect E len thr level paths R in levels_effect E len thr n' (S level) paths' R'
  end.
(** The whole run: the levels from the root on, then the last level. *)
Definition run_effect (E : env) (len : nat) (thr : Z) (batch bits : nat) (R : list pair) : outcome (list result) :=
  let! '(paths, R') := levels_effect E len thr (bits - 1) 0 [[]] R in
  if forallb (proofs_agree E len paths) (firstn (compared (length R') (length (remaining R')) batch) (remaining R'))
  then Ret (map (seen_result E len R') (survivors E len thr R' paths)) else Panic PAssert.

(** the levels of this run at which some report is inconsistent have fine hashes *)
Fixpoint fine_levels (E : env) (len : nat) (thr : Z) (n level : nat) (paths : list (list bool)) (R : list pair) : Prop :=
  match n with
  | O => True
  | S n' => (bad_ranks E len level paths R <> [] -> hashes_fine E len level paths R) /\
            match level_effect E len thr level paths R with
            | Ret (paths', R') => fine_levels E len thr n' (S level) paths' R'
            | Panic _ => True
            end
  end.

(** the FLP verdicts are the flags of the reports; with a single level there is no FLP check *)
Definition flp_flags (E : env) (len bits : nat) (vk : bytes) (R : list pair) : Prop :=
  if bits =? 1 then all_accepted R else Forall (fun x => report_verdict E len vk (share_of true x) (share_of false x) (fst x)) R.
Definition well_formed_pairs (bits : nat) (R : list pair) : Prop :=
  Forall (fun x => well_formed bits (share_of true x) /\ well_formed bits (share_of false x)) R.
