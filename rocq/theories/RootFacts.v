(** Proofs about Merkle roots for C44. *)
From Verif Require Import Base BaseFacts Field Util UtilFacts Env Merkle Collect SpecSearch SpecRoot ToyEnv.
From Coq Require Import Lia.

Section Root.
Variable E : env.
Hypothesis Hok : env_ok E.
Definition sized (l : list bytes) : Prop := Forall (fun h => length h = HASH_SIZE) l.

Lemma pairs_ind {A} (Q : list A -> Prop) : Q [] -> (forall a, Q [a]) -> (forall a b l, Q l -> Q (a :: b :: l)) -> forall l, Q l.
Proof.
  intros H0 H1 H2. assert (H : forall n l, length l <= n -> Q l); [|intros l; exact (H _ l (le_n _))].
  induction n as [|n IH]; intros [|a [|b l]] Hl; cbn [length] in Hl; try lia; try apply H0; try apply H1. apply H2, IH. lia.
Qed.
Lemma level_sized l : sized l -> sized (merkle_level E l).
Proof.
  pattern l. apply pairs_ind; clear l; [auto|auto|]. intros a b l IH H. cbn [merkle_level]. inversion H as [|? ? _ H']. inversion H' as [|? ? _ H'']. constructor; [|apply IH; exact H''].
  unfold hash_alg. rewrite firstn_length. destruct Hok as (_ & Hb & _). rewrite Hb. reflexivity.
Qed.
Lemma level_length l : length (merkle_level E l) <= length l /\ (2 <= length l -> length (merkle_level E l) < length l).
Proof. pattern l. apply pairs_ind; clear l; [cbn; lia|cbn; lia|]. intros a b l [IH _]. cbn [merkle_level length]. lia. Qed.
Lemma level_same : forall l l', length l = length l' -> length (merkle_level E l) = length (merkle_level E l').
Proof.
  intros l. pattern l. apply pairs_ind; clear l.
  - intros [|x l'] H; [reflexivity|discriminate].
  - intros a [|x [|y l']] H; try discriminate. reflexivity.
  - intros a b l IH [|x [|y l']] H; try discriminate. cbn [merkle_level length] in *. rewrite (IH l') by lia. reflexivity.
Qed.
Lemma app_split : forall (a a' b b' : bytes), length a = length a' -> a ++ b = a' ++ b' -> a = a' /\ b = b'.
Proof.
  induction a as [|x a IH]; intros [|x' a'] b b' Hl He; try discriminate; [split; [reflexivity|exact He]|].
  cbn [app length] in *. injection He as -> He. destruct (IH a' b b' ltac:(lia) He) as [-> ->]. split; reflexivity.
Qed.
(** the collision between two levels *)
Definition level_collision (l l' : list bytes) : Prop :=
  exists i a b a' b', neighbours E l 0 i a b /\ neighbours E l' 0 i a' b' /\
    a ++ b <> a' ++ b' /\ firstn HASH_SIZE (blake3 E (a ++ b)) = firstn HASH_SIZE (blake3 E (a' ++ b')).
Lemma level_binding : forall l l', length l = length l' -> sized l -> sized l' -> merkle_level E l = merkle_level E l' -> l = l' \/ level_collision l l'.
Proof.
  intros l. pattern l. apply pairs_ind; clear l.
  - intros [|x l'] H; [left; reflexivity|discriminate].
  - intros a [|x [|y l']] H _ _ He; try discriminate. left. exact He.
  - intros a b l IH [|x [|y l']] H S S' He; try discriminate. cbn [merkle_level length] in *. injection He as Hh He.
    inversion S as [|? ? Sa S1]. inversion S1 as [|? ? Sb S2]. inversion S' as [|? ? Sx S1']. inversion S1' as [|? ? Sy S2'].
    destruct (list_eq_dec N.eq_dec (a ++ b) (x ++ y)) as [Hq|Hne].
    + destruct (app_split a x b y ltac:(congruence) Hq) as [-> ->].
      destruct (IH l' ltac:(lia) S2 S2' He) as [->|(i & c & d & c' & d' & [N1 N2] & [N3 N4] & R)]; [left; reflexivity|].
      right. exists (Datatypes.S i), c, d, c', d'. unfold neighbours in *. cbn [Nat.iter nat_rect] in *.
      replace (2 * Datatypes.S i) with (Datatypes.S (Datatypes.S (2 * i))) by lia. cbn [nth_error Nat.add].
      repeat split; try assumption; apply R.
    + right. exists 0, a, b, x, y. repeat split; assumption.
Qed.
Lemma iter_up t l : Nat.iter t (merkle_level E) (merkle_level E l) = Nat.iter (S t) (merkle_level E) l.
Proof. induction t as [|t IH]; [reflexivity|]. change (merkle_level E (Nat.iter t (merkle_level E) (merkle_level E l)) = merkle_level E (Nat.iter (S t) (merkle_level E) l)). rewrite IH. reflexivity. Qed.
Lemma collision_up l l' : tree_collision E (merkle_level E l) (merkle_level E l') -> tree_collision E l l'.
Proof.
  intros (t & i & a & b & a' & b' & N1 & N2 & R). exists (S t), i, a, b, a', b'. unfold neighbours in *. rewrite !iter_up in *. auto.
Qed.
Lemma up_binding : forall f l l', length l = length l' -> length l <= S f -> sized l -> sized l' -> merkle_up f E l = merkle_up f E l' -> l = l' \/ tree_collision E l l'.
Proof.
  induction f as [|f IH]; intros l l' Hl Hf S S' He.
  - destruct l as [|a [|b l]]; destruct l' as [|x [|y l']]; cbn [length] in *; try lia; [left; reflexivity|]. cbn [merkle_up] in He. injection He as ->. left. reflexivity.
  - destruct l as [|a [|b l]]; destruct l' as [|x [|y l']]; cbn [length] in Hl; try lia; [left; reflexivity|injection He as ->; left; reflexivity|].
    change (merkle_up f E (merkle_level E (a :: b :: l)) = merkle_up f E (merkle_level E (x :: y :: l'))) in He.
    destruct (IH (merkle_level E (a :: b :: l)) (merkle_level E (x :: y :: l'))) as [He'|Hc]; try exact He.
    + apply level_same. exact Hl.
    + pose proof (proj2 (level_length (a :: b :: l)) ltac:(cbn [length]; lia)). lia.
    + apply level_sized, S.
    + apply level_sized, S'.
    + destruct (level_binding (a :: b :: l) (x :: y :: l') Hl S S' He') as [Hq|(i & R)]; [left; exact Hq|right; exists 0, i; exact R].
    + right. apply collision_up, Hc.
Qed.
Lemma root_binding l l' : length l = length l' -> sized l -> sized l' -> merkle_root E l = merkle_root E l' -> l = l' \/ tree_collision E l l'.
Proof. intros Hl S S' He. unfold merkle_root in He. rewrite <- Hl in He. apply (up_binding (length l)); try assumption. lia. Qed.
(** the hypothesis of the search for bad reports: it fails only at a collision between two blocks *)
Lemma blocks_binding h0 h1 k j : length h0 = length h1 -> sized h0 -> sized h1 ->
  merkle_root E (block k j h0) = merkle_root E (block k j h1) -> block k j h0 = block k j h1 \/ tree_collision E (block k j h0) (block k j h1).
Proof.
  intros Hl S0 S1. assert (Hs : forall h, sized h -> sized (block k j h)).
  { intros h Hh. unfold sized, block. apply Forall_forall. intros x Hx. apply (proj1 (Forall_forall _ _) Hh).
    rewrite <- (firstn_skipn (j * 2 ^ k) h). apply in_or_app. right. rewrite <- (firstn_skipn (2 ^ k) (skipn (j * 2 ^ k) h)). apply in_or_app. left. exact Hx. }
  apply root_binding; auto. unfold block. rewrite !firstn_length, !skipn_length, Hl. reflexivity.
Qed.
End Root.

(** the number of leaves is not part of the root *)
Lemma roots_of_two_lengths E a b c : merkle_root E [a; b; c] = merkle_root E [firstn HASH_SIZE (blake3 E (a ++ b)); c].
Proof. reflexivity. Qed.

(** three hashes, the last of which is different in the second list *)
Definition rt_hash (x : N) : bytes := repeat x HASH_SIZE.
Lemma rt_example : let E := toy_env true true in let l := map rt_hash [1; 2; 3]%N in let l' := map rt_hash [1; 2; 4]%N in
  env_ok E /\ length l = length l' /\ sized l /\ sized l' /\ (exists r r', merkle_root E l = Some r /\ merkle_root E l' = Some r' /\ r <> r').
Proof.
  cbn zeta. split; [apply toy_env_ok|]. split; [reflexivity|]. split; [repeat constructor|]. split; [repeat constructor|].
  eexists. eexists. split; [vm_compute; reflexivity|]. split; [vm_compute; reflexivity|]. discriminate.
Qed.
