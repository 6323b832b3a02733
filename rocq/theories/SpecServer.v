(** Specification vocabulary for the aggregator as a server. *)
From Verif Require Import Base Field Util Env Prg Vidpf SpecTree Merkle Collect Server SpecCollect.

(** an aggregator that has done nothing since it was started with this verify key *)
Definition fresh_server (id : Z) (bits : option nat) (hist : nat) (vk : bytes) : server :=
  {| s_id := id; s_bits := bits; s_poison := false;
     s_coll := {| c_len := hist; c_sid := id; c_vk := vk; c_depth := bits; c_reports := []; c_frontier := [];
                  c_prev := []; c_final := []; c_abm := []; c_pm := [] |} |}.

Definition panicked {A} (a : outcome A) : Prop := exists p, a = Panic p.

(** l is an interleaving of qs0 (left) and qs1 (right) *)
Inductive interleaves {A B} : list A -> list B -> list (A + B) -> Prop :=
| il_nil : interleaves [] [] []
| il_left a l0 l1 l : interleaves l0 l1 l -> interleaves (a :: l0) l1 (inl a :: l)
| il_right b l0 l1 l : interleaves l0 l1 l -> interleaves l0 (b :: l1) (inr b :: l).

(** the two aggregators working off one stream of requests *)
Fixpoint run_stream (E : env) (s0 s1 : server) (l : list (request + request))
  : server * server * list (outcome response + outcome response) :=
  match l with
  | [] => (s0, s1, [])
  | inl q :: l' => let '(s0', a) := handle E s0 q in
                   let '(t0, t1, rs) := run_stream E s0' s1 l' in (t0, t1, inl a :: rs)
  | inr q :: l' => let '(s1', a) := handle E s1 q in
                   let '(t0, t1, rs) := run_stream E s0 s1' l' in (t0, t1, inr a :: rs)
  end.

(** the report list of an aggregator, and whether a report is still accepted *)
Definition accepted (s : server) (i : nat) : Prop := exists r, nth_error (c_reports (s_coll s)) i = Some (true, r).
Definition rejected (s : server) (i : nat) : Prop := exists r, nth_error (c_reports (s_coll s)) i = Some (false, r).

(** the requests that are not a reset *)
Definition not_reset (q : request) : Prop := match q with QReset _ _ => False | _ => True end.

(** the requests that build new tree nodes *)
Definition grows_tree (q : request) : Prop :=
  match q with QTreeInit | QTreeCrawl _ _ _ | QTreeCrawlLast => True | _ => False end.
(** a node holds, for each of the first n reports, the evaluation state and the word share obtained by
    evaluating that report's key directly along the path of the node *)
Definition holds_evaluations (E : env) (len : nat) (reports : list (bool * report_share)) (n : nat) (node : tree_node) : Prop :=
  length (tn_states node) = n /\ length (tn_values node) = n /\
  forall i, i < n -> exists h nonce k proof jr st out,
    nth_error reports i = Some (h, RSMastic nonce k proof jr) /\ nth_error (tn_states node) i = Some st /\
    eval_loop E k (eval_init k) [] (tn_path node) len = Ret (st, bits_to_bitstring (tn_path node), out) /\
    nth_error (tn_values node) i = Some (last out [of_Z 0]).

(** value is the component-wise sum, over the accepted reports, of the word shares of their keys *)
Definition is_sum_of_accepted (E : env) (len : nat) (reports : list (bool * report_share)) (path : list bool) (value : list fld) : Prop :=
  exists shares, length shares = length reports /\
  (forall i w, nth_error shares i = Some w -> exists h nonce k proof jr pf,
     nth_error reports i = Some (h, RSMastic nonce k proof jr) /\ share_at E k len path = Ret (w, pf)) /\
  length value = len + 1 /\ forall j, j <= len -> nth j value (of_Z 0) = masked_sum j (map fst reports) shares.

(** clear the flags of the reports that are not kept *)
Definition mark (keep : list bool) (reps : list (bool * report_share)) : list (bool * report_share) :=
  map (fun kr : bool * (bool * report_share) => (fst (snd kr) && fst kr, snd (snd kr))) (combine keep reps).

(** component-wise sums of two result lists, and the test applied to them *)
Fixpoint reconstruct (len : nat) (r0 r1 : list result) : list result :=
  match r0, r1 with
  | a :: r0', b :: r1' => {| res_path := res_path a; res_value := sum_vec (len + 1) (res_value a) (res_value b) |} :: reconstruct len r0' r1'
  | _, _ => []
  end.
Definition counter_nonzero (len : nat) (r : result) : bool := negb (fval (nth len (res_value r) (of_Z 0)) =? 0)%Z.

