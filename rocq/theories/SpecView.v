(** Specification for C82: the requests an aggregator receives during a run of weighted heavy hitters. *)
From Verif Require Import Base Field Util Env Prg Vidpf Merkle Collect Server Driver SpecTree SpecLevel SpecWhh SpecPrg Sched SpecSched SchedFacts System.

(** the requests the driver sends to the two aggregators, in order, including one that fails *)
Fixpoint asked (E : env) {A} (p : proc A) (s0 s1 : server) : list (request * request) :=
  match p with
  | PDone _ => []
  | PCompute t k => match alone E t with Ret b => asked E (k b) s0 s1 | Panic _ => [] end
  | PAsk q0 q1 k =>
      (q0, q1) :: match handle E s0 q0, handle E s1 q1 with
                  | (s0', Ret r0), (s1', Ret r1) => asked E (k r0 r1) s0' s1'
                  | _, _ => []
                  end
  end.

(** n clients in batches of b; the last one may be shorter *)
Definition bounds (n b : nat) : list (nat * nat) := map (fun k => (k * b, Nat.min n (k * b + b))) (seq 0 ((n + (b - 1)) / b)).
(** the prefixes of k bits in h; the empty prefix is always in *)
Definition prefixes (h : list bool -> bool) (k : nat) : list (list bool) := match k with O => [[]] | S _ => filter h (all_paths k) end.

(** What can be written down knowing the FLP verdicts [oks] and the set [h] of heavy prefixes, but no share,
    no string and no weight of any client. *)
Definition checked (b : nat) (oks : list bool) : list request :=
  map (fun r => QRunFlpQueries (fst r) (snd r)) (bounds (length oks) b) ++ [QApplyFlpResults oks].
Definition descent (h : list bool -> bool) (levels : nat) : list request :=
  flat_map (fun l => [QTreeCrawl 1 [] false; QTreePrune (map h (children (prefixes h l)))]) (seq 0 levels).
Definition finish (b n bits : nat) (h : list bool -> bool) : list request :=
  QTreeCrawlLast :: map (fun r => QGetProofs (fst r) (snd r)) (bounds n b) ++ [QTreePrune (map h (children (prefixes h (bits - 1)))); QFinalShares].
Definition script (b bits : nat) (oks : list bool) (h : list bool -> bool) : list request :=
  QTreeInit :: (if 2 <=? bits then checked b oks else []) ++ descent h (bits - 1) ++ finish b (length oks) bits h.
(** no prefix of [l] bits is heavy: the next crawl is the last request *)
Definition short_script (b l : nat) (oks : list bool) (h : list bool -> bool) : list request :=
  QTreeInit :: checked b oks ++ descent h l ++ [QTreeCrawl 1 [] false].

Definition both (q : request) : request * request := (q, q).
