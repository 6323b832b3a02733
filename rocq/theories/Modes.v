(** Model of the rest of main in /repo/src/bin/driver.rs: attribute-based metrics and plain metrics from
    report generation to the printed tables. *)
From Verif Require Import Base Field Util Env Prg Vidpf Merkle Collect Server Driver.

(** main for Mode::AttributeBasedMetrics, driver.rs:708-748,770-794.  [samples] are the values drawn from
    the zipf distribution, driver.rs:777-780; [order] is the iteration order of the HashSet, which the
    standard library leaves open, driver.rs:781. *)
Definition main_abm (fuel : nat) (E : env) (cfg : config) (clients : list client) (vk : bytes) (chs : list choice)
           (samples : list nat) (order : list (list bool) -> list (list bool)) (s0 s1 : server)
  : outcome (server * server * list (list (list bool * list fld))) :=
  if negb (hist_ok (cfg_hist cfg)) then Panic PUnwrap else
  if length clients =? 0 then Panic PAssert else
  let! reports := mapM (gen_report E (cfg_hist cfg)) clients in
  let! '(s0, s1) := reset_servers E cfg vk s0 s1 in
  let! '(s0, s1) := upload fuel E cfg reports chs s0 s1 in
  let! attrs := sample_attributes reports samples in
  run_abm E cfg s0 s1 (order attrs) (length chs).

(** driver.rs:621-686  run_plain_metrics; one histogram and one number of rejected reports per batch.
    Prio3::new_histogram(2, len, sqrt(len)).unwrap() succeeds iff len is accepted by Histogram::new and
    positive, which hist_ok covers. *)
Fixpoint pm_batches (E : env) (cfg : config) (s0 s1 : server) (num_clients : nat) (starts : list nat)
  : outcome (server * server * list (list Z * Z)) :=
  match starts with
  | [] => Ret (s0, s1, [])
  | start :: starts' =>
      let stop := Nat.min num_clients (start + cfg_query_batch cfg) in
      let! '(s0, s1, t) := pm_batch E cfg s0 s1 start stop in
      let! '(s0, s1, ts) := pm_batches E cfg s0 s1 num_clients starts' in
      Ret (s0, s1, t :: ts)
  end.
Definition run_pm (E : env) (cfg : config) (s0 s1 : server) (num_clients : nat)
  : outcome (server * server * list (list Z * Z)) :=
  if negb (hist_ok (cfg_hist cfg)) then Panic PUnwrap else
  let! starts := step_by num_clients (cfg_query_batch cfg) in
  pm_batches E cfg s0 s1 num_clients starts.

(** A simulated client of plain metrics, driver.rs:133-136,198-204: its nonce, its bucket, and the
    randomness of Prio3::shard. *)
Record pm_client := { pc_nonce : bytes; pc_bucket : nat; pc_rand : bytes }.
(** Prio3::shard of prio and the encoding of its result (driver.rs:105-123), not modelled further: length
    of the histogram, bucket, nonce and randomness to public share and the two input shares *)
Definition sharding : Type := nat -> nat -> bytes -> bytes -> option (bytes * (bytes * bytes)).
(** driver.rs:198-210  one Prio3 report *)
Definition gen_prio_report (shard : sharding) (len : nat) (cl : pm_client) : outcome plaintext_report :=
  let! x := unwrap (shard len (pc_bucket cl) (pc_nonce cl) (pc_rand cl)) in
  Ret (PRPrio3 (pc_nonce cl) (fst x) (fst (snd x)) (snd (snd x))).

(** main for Mode::PlainMetrics, driver.rs:708-748,795-797 *)
Definition main_pm (fuel : nat) (E : env) (shard : sharding) (cfg : config) (clients : list pm_client) (vk : bytes) (chs : list choice)
           (s0 s1 : server) : outcome (server * server * list (list Z * Z)) :=
  if negb (hist_ok (cfg_hist cfg)) then Panic PUnwrap else
  if length clients =? 0 then Panic PAssert else
  let! reports := mapM (gen_prio_report shard (cfg_hist cfg)) clients in
  let! '(s0, s1) := reset_servers E cfg vk s0 s1 in
  let! '(s0, s1) := upload fuel E cfg reports chs s0 s1 in
  run_pm E cfg s0 s1 (length chs).
