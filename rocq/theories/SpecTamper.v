(** Specification for C83: an aggregator whose answers are not what it computed. *)
From Verif Require Import Base Field Util Env Prg Vidpf Merkle Collect Server Driver Modes SpecPrg Sched SpecSched SchedFacts System SpecLevel SpecWhh SpecModes.

(** A run of the driver in which every answer of one aggregator, the first one if [who], goes through [alter] before it
    reaches the driver.  Otherwise the aggregators follow the protocol, and so does the driver. *)
Fixpoint tampered (E : env) (who : bool) (alter : request -> response -> response) {A} (p : proc A) (s0 s1 : server)
  : outcome (server * server * A) :=
  match p with
  | PDone o => let! a := o in Ret (s0, s1, a)
  | PCompute t k => let! b := alone E t in tampered E who alter (k b) s0 s1
  | PAsk q0 q1 k =>
      let! '(s0, s1, (r0, r1)) := call2 E s0 s1 q0 q1 in
      tampered E who alter (k (if who then alter q0 r0 else r0) (if who then r1 else alter q1 r1)) s0 s1
  end.

Definition numbered {A} (l : list A) : list (nat * A) := combine (seq 0 (length l)) l.
(** d j added to entry j *)
Definition raised (d : nat -> fld) (v : list fld) : list fld := map (fun jx => fadd (snd jx) (d (fst jx))) (numbered v).
(** Attribute-based metrics: in the batch that begins at client [start], d start a j is added to the share of
    attribute a and bucket j. *)
Definition add_to_tables (d : nat -> nat -> nat -> fld) (q : request) (r : response) : response :=
  match q, r with
  | QAbmResult _ _ start _, AFields rows => AFields (map (fun ar => raised (d start (fst ar)) (snd ar)) (numbered rows))
  | _, _ => r
  end.
(** Plain metrics: d start j is added to the share of bucket j. *)
Definition add_to_histograms (d : nat -> nat -> fld) (q : request) (r : response) : response :=
  match q, r with
  | QPmResult _ start _, APmResult agg n => APmResult (raised (d start) agg) n
  | _, _ => r
  end.

(** what is printed then *)
Definition raised_table (d : nat -> nat -> fld) (t : list (list bool * list fld)) : list (list bool * list fld) :=
  map (fun ar => (fst (snd ar), raised (d (fst ar)) (snd (snd ar)))) (numbered t).
Definition raised_counts (d : nat -> fld) (h : list Z) : list Z := map (fun jz => fval (fadd (of_Z (snd jz)) (d (fst jz)))) (numbered h).
(** table or histogram number k is that of the batch that begins at k * b *)
Definition each {T} (b : nat) (change : nat -> T -> T) (ts : list T) : list T := map (fun kt => change (fst kt * b) (snd kt)) (numbered ts).

(** The driver with answers that come from anywhere: what it makes of them, if it asks as many times as there are answers. *)
Fixpoint fed (E : env) {A} (p : proc A) (answers : list (response * response)) : option (outcome A) :=
  match p, answers with
  | PDone o, [] => Some o
  | PDone _, _ :: _ => None
  | PCompute t k, _ => match alone E t with Ret b => fed E (k b) answers | Panic e => Some (Panic e) end
  | PAsk _ _ k, (r0, r1) :: answers' => fed E (k r0 r1) answers'
  | PAsk _ _ _, [] => None
  end.

(** tables and histograms of honest clients with x more in each place *)
Definition padded_table (len : nat) (attrs : list (list bool)) (bs : list (list bool * nat)) (x : nat -> nat -> Z) : list (list bool * list fld) :=
  map (fun ia => (snd ia, map (fun j => of_Z (tally_bucket bs (snd ia) j + x (fst ia) j)) (seq 0 len))) (numbered attrs).
Definition padded (x : nat -> Z) (h : list Z) : list Z := map (fun jz => (snd jz + x (fst jz))%Z) (numbered h).
