(** The search for inconsistent reports: blocks of hashes, their roots and the indices the driver collects. *)
From Verif Require Import Base BaseFacts Field Util Env Merkle Collect Server Driver SpecSearch MerkleFacts WhhFacts.

(** *** blocks *)
Lemma skipn_nil_ge {A} n (l : list A) : length l <= n -> skipn n l = [].
Proof. intros H. apply length_zero_iff_nil. rewrite skipn_length. lia. Qed.
Lemma block_length {A} k j (l : list A) : length (block k j l) = Nat.min (2 ^ k) (length l - j * 2 ^ k).
Proof. unfold block. rewrite firstn_length, skipn_length. reflexivity. Qed.
Lemma block_past {A} k j (l : list A) : length l <= j * 2 ^ k -> block k j l = [].
Proof. intros H. unfold block. rewrite skipn_nil_ge by exact H. apply firstn_nil. Qed.
Lemma block_nonempty {A} k j (l : list A) : j * 2 ^ k < length l -> block k j l <> [].
Proof. intros H He. apply (f_equal (@length A)) in He. rewrite block_length in He. pose proof (pow2_ge1 k). cbn [length] in He. lia. Qed.
Lemma block_split {A} k i (l : list A) : block (S k) i l = block k (2 * i) l ++ block k (2 * i + 1) l.
Proof.
  unfold block. replace (2 ^ S k) with (2 ^ k + 2 ^ k) by (cbn; lia). replace (i * (2 ^ k + 2 ^ k)) with (2 * i * 2 ^ k) by lia.
  replace ((2 * i + 1) * 2 ^ k) with (2 ^ k + 2 * i * 2 ^ k) by lia. rewrite <- skipn_skipn'. set (r := skipn (2 * i * 2 ^ k) l).
  clearbody r. clear. set (n := 2 ^ k). clearbody n. revert r. generalize n at 2 4. intros q. induction n as [|n IH]; intros r; [reflexivity|].
  destruct r as [|x r]; [cbn [Nat.add firstn skipn]; rewrite firstn_nil; reflexivity|]. cbn [Nat.add firstn skipn app]. rewrite IH. reflexivity.
Qed.
Lemma block_all {A} k (l : list A) : length l <= 2 ^ k -> block k 0 l = l.
Proof. intros H. unfold block. cbn [Nat.mul skipn]. apply firstn_all2. exact H. Qed.
Lemma block_one {A} j (l : list A) : block 0 j l = match nth_error l j with Some x => [x] | None => [] end.
Proof.
  unfold block. cbn [Nat.pow]. rewrite Nat.mul_1_r. revert j. induction l as [|x l IH]; intros j.
  - rewrite skipn_nil. cbn. destruct j; reflexivity.
  - destruct j as [|j]; [reflexivity|]. cbn [skipn nth_error]. apply IH.
Qed.

Lemma chunks_nth {A} k : forall fuel (l : list A) j, length l <= fuel ->
  nth_error (chunks_fuel fuel (2 ^ k) l) j = if j * 2 ^ k <? length l then Some (block k j l) else None.
Proof.
  pose proof (pow2_ge1 k) as Hk. induction fuel as [|fuel IH]; intros l j Hl.
  - destruct l; [|cbn in Hl; lia]. cbn [chunks_fuel length]. rewrite (proj2 (Nat.ltb_ge _ _)) by lia. destruct j; reflexivity.
  - cbn [chunks_fuel]. destruct l as [|x l]; [cbn [length]; rewrite (proj2 (Nat.ltb_ge _ _)) by lia; destruct j; reflexivity|].
    set (l' := x :: l) in *. destruct j as [|j].
    + cbn [nth_error]. rewrite (proj2 (Nat.ltb_lt _ _)) by (unfold l'; cbn [length Nat.mul]; lia). unfold block. reflexivity.
    + cbn [nth_error]. rewrite IH by (rewrite skipn_length; unfold l' in *; cbn [length] in *; lia). rewrite skipn_length.
      replace (S j * 2 ^ k <? length l') with (j * 2 ^ k <? length l' - 2 ^ k).
      2:{ destruct (j * 2 ^ k <? length l' - 2 ^ k) eqn:H1; symmetry; [apply Nat.ltb_lt|apply Nat.ltb_ge]; [apply Nat.ltb_lt in H1|apply Nat.ltb_ge in H1]; cbn [Nat.mul]; lia. }
      destruct (j * 2 ^ k <? length l' - 2 ^ k); [|reflexivity]. f_equal. unfold block. rewrite skipn_skipn'. f_equal. f_equal. cbn [Nat.mul]. lia.
Qed.
Lemma chunks_ret {A} k (l : list A) : chunks (2 ^ k) l = Ret (chunks_fuel (length l) (2 ^ k) l).
Proof. unfold chunks. pose proof (pow2_ge1 k). rewrite (proj2 (Nat.eqb_neq _ _)) by lia. reflexivity. Qed.
Lemma chunks_count {A} k (l : list A) j : (length (chunks_fuel (length l) (2 ^ k) l) <=? j) = negb (j * 2 ^ k <? length l).
Proof.
  pose proof (chunks_nth k (length l) l j (le_n _)) as H. destruct (j * 2 ^ k <? length l) eqn:Hj; cbn [negb].
  - apply Nat.leb_gt. apply nth_error_Some. rewrite H. discriminate.
  - apply Nat.leb_le. apply nth_error_None. exact H.
Qed.

(** *** roots of the children of the listed blocks *)
Section Roots.
Variable E : env.
Definition root_or (l : list bytes) : bytes := match merkle_root E l with Some r => r | None => [] end.
Lemma root_or_some l : l <> [] -> merkle_root E l = Some (root_or l).
Proof. intros H. unfold root_or. destruct (merkle_root_some E l H) as [r ->]. reflexivity. Qed.

(** children of block i among those that exist *)
Definition kids (k m i : nat) : list nat := if (2 * i + 1) * 2 ^ k <? m then [2 * i; 2 * i + 1] else [2 * i].
Definition kids_of (k m : nat) (M : list nat) : list nat := flat_map (kids k m) M.

Lemma fold_roots k (hs : list bytes) : forall M roots indices, (forall i, In i M -> 2 * i * 2 ^ k < length hs) ->
  foldM (fun acc i =>
        let '(roots, indices) := acc in
        let! cl := index (chunks_fuel (length hs) (2 ^ k) hs) (i * 2) in
        let! root_left := unwrap (merkle_root E cl) in
        let roots := roots ++ [root_left] in
        let indices := indices ++ [i * 2] in
        if length (chunks_fuel (length hs) (2 ^ k) hs) <=? i * 2 + 1 then Ret (roots, indices) else
        let! cr := index (chunks_fuel (length hs) (2 ^ k) hs) (i * 2 + 1) in
        let! root_right := unwrap (merkle_root E cr) in
        Ret (roots ++ [root_right], indices ++ [i * 2 + 1])) (roots, indices) M =
  Ret (roots ++ map (fun j => root_or (block k j hs)) (kids_of k (length hs) M), indices ++ kids_of k (length hs) M).
Proof.
  induction M as [|i M IH]; intros roots indices HM; [cbn; rewrite !app_nil_r; reflexivity|].
  assert (Hi : 2 * i * 2 ^ k < length hs) by (apply HM; left; reflexivity).
  cbn [foldM]. replace (i * 2) with (2 * i) by lia.
  rewrite (index_some _ _ (block k (2 * i) hs)).
  2:{ rewrite chunks_nth by lia. rewrite (proj2 (Nat.ltb_lt _ _)) by exact Hi. reflexivity. }
  cbn [bind]. rewrite (root_or_some (block k (2 * i) hs)) by (apply block_nonempty; exact Hi). cbn [unwrap bind].
  rewrite chunks_count. cbn [kids_of flat_map]. unfold kids at 1 3. destruct ((2 * i + 1) * 2 ^ k <? length hs) eqn:Hr; cbn [negb bind].
  - rewrite (index_some _ _ (block k (2 * i + 1) hs)) by (rewrite chunks_nth by lia; rewrite Hr; reflexivity). cbn [bind].
    rewrite (root_or_some (block k (2 * i + 1) hs)) by (apply block_nonempty, Nat.ltb_lt; exact Hr). cbn [unwrap bind].
    rewrite IH by (intros; apply HM; right; assumption). cbn [app map]. rewrite <- !app_assoc. reflexivity.
  - rewrite IH by (intros; apply HM; right; assumption). cbn [app map]. rewrite <- !app_assoc. reflexivity.
Qed.

Lemma pow_div a b : b <= a -> 2 ^ a / 2 ^ b = 2 ^ (a - b).
Proof. intros H. replace a with ((a - b) + b) at 1 by lia. rewrite Nat.pow_add_r. apply Nat.div_mul. apply Nat.pow_nonzero. discriminate. Qed.
Lemma merkle_first hs D M : clog2f E (length hs) = D -> hs <> [] -> merkle_part E hs 1 M false = Ret ([root_or (block D 0 hs)], [0]).
Proof.
  intros <- Hne. rewrite merkle_one by exact Hne. set (D := clog2f E (length hs)). change (firstn (2 ^ D) hs) with (block D 0 hs).
  rewrite root_or_some by (apply block_nonempty; cbn; destruct hs; [contradiction|cbn; lia]). reflexivity.
Qed.
Lemma merkle_split hs D k M : clog2f E (length hs) = S k + D -> (forall i, In i M -> 2 * i * 2 ^ D < length hs) ->
  merkle_part E hs (2 ^ S k) M false = Ret (map (fun j => root_or (block D j hs)) (kids_of D (length hs) M), kids_of D (length hs) M).
Proof.
  intros HD HM. unfold merkle_part. rewrite HD, pow_div by lia. replace (S k + D - S k) with D by lia. pose proof (pow2_ge1 k).
  rewrite (proj2 (Nat.eqb_neq (2 ^ S k) 0)) by (cbn; lia). rewrite chunks_ret. cbn [bind]. rewrite (proj2 (Nat.eqb_neq (2 ^ S k) 1)) by (cbn; lia).
  rewrite fold_roots by exact HM. reflexivity.
Qed.
(** more chunks than leaves: a chunk size of 0 *)
Lemma merkle_too_many hs k M : clog2f E (length hs) < k -> merkle_part E hs (2 ^ k) M false = Panic PArith.
Proof.
  intros HD. unfold merkle_part. pose proof (pow2_ge1 k). rewrite (proj2 (Nat.eqb_neq (2 ^ k) 0)) by lia.
  rewrite Nat.div_small by (apply Nat.pow_lt_mono_r; lia). reflexivity.
Qed.
Lemma merkle_none split M : merkle_part E [] split M true = Panic PIndex.
Proof. unfold merkle_part. cbn [Nat.eqb]. rewrite Nat.div_1_r. pose proof (pow2_ge1 (clog2f E (length (@nil bytes)))). unfold chunks. rewrite (proj2 (Nat.eqb_neq _ _)) by lia. reflexivity. Qed.

(** *** the comparison by the driver *)
Lemma mismatches_maps {A} (f0 f1 : A -> bytes) (g : A -> nat) v0 v1 l :
  mismatches (v0, map f0 l, map g l) (v1, map f1 l, map g l) = Ret (map g (filter (fun j => negb (bytes_eqb (f0 j) (f1 j))) l)).
Proof.
  unfold mismatches. rewrite map_length.
  assert (H : forall post pre acc, l = pre ++ post ->
    foldM (fun acc i =>
           let! x0 := index (map f0 l) i in
           let! x1 := index (map f1 l) i in
           if bytes_eqb x0 x1 then Ret acc else
           let! j0 := index (map g l) i in
           let! j1 := index (map g l) i in
           do! assert_ (j0 =? j1);
           Ret (acc ++ [j0])) acc (seq (length pre) (length post)) = Ret (acc ++ map g (filter (fun j => negb (bytes_eqb (f0 j) (f1 j))) post))).
  { induction post as [|j post IH]; intros pre acc Hl; [cbn; rewrite app_nil_r; reflexivity|]. cbn [length seq foldM].
    assert (Hj : nth_error l (length pre) = Some j) by (rewrite Hl, nth_error_app2, Nat.sub_diag by lia; reflexivity).
    rewrite (index_some (map f0 l) _ (f0 j)) by (rewrite nth_error_map', Hj; reflexivity). cbn [bind].
    rewrite (index_some (map f1 l) _ (f1 j)) by (rewrite nth_error_map', Hj; reflexivity). cbn [bind].
    rewrite (index_some (map g l) _ (g j)) by (rewrite nth_error_map', Hj; reflexivity). cbn [bind]. rewrite (proj2 (assert_true _) (Nat.eqb_refl _)). cbn [bind].
    assert (Hn : S (length pre) = length (pre ++ [j])) by (rewrite app_length; cbn; lia). rewrite Hn. cbn [filter].
    destruct (bytes_eqb (f0 j) (f1 j)); cbn [negb bind].
    - apply IH. rewrite <- app_assoc. exact Hl.
    - rewrite IH by (rewrite <- app_assoc; exact Hl). cbn [map]. rewrite <- app_assoc. reflexivity. }
  apply (H l [] [] eq_refl).
Qed.
End Roots.

(** *** which blocks differ *)
Section Differ.
Variable E : env.
Variables h0 h1 : list bytes.
Hypothesis Hlen : length h0 = length h1.
Definition differ (k j : nat) : bool := negb (list_eqb bytes_eqb (block k j h0) (block k j h1)).
Lemma differ_false k j : differ k j = false <-> block k j h0 = block k j h1.
Proof. unfold differ. rewrite negb_false_iff. apply list_eqb_eq. intros. apply bytes_eqb_eq. Qed.
Lemma differ_past k j : length h0 <= j * 2 ^ k -> differ k j = false.
Proof. intros H. apply differ_false. rewrite !block_past by lia. reflexivity. Qed.
Lemma differ_in k j : differ k j = true -> j * 2 ^ k < length h0.
Proof. intros H. destruct (Nat.lt_ge_cases (j * 2 ^ k) (length h0)) as [|Hge]; [assumption|]. rewrite (differ_past _ _ Hge) in H. discriminate. Qed.
Lemma differ_parent k i : differ k (2 * i) = true \/ differ k (2 * i + 1) = true -> differ (S k) i = true.
Proof.
  intros H. destruct (differ (S k) i) eqn:Hd; [reflexivity|]. apply differ_false in Hd. rewrite !block_split in Hd.
  assert (Hl : block k (2 * i) h0 = block k (2 * i) h1 /\ block k (2 * i + 1) h0 = block k (2 * i + 1) h1).
  { assert (Hlb : length (block k (2 * i) h0) = length (block k (2 * i) h1)) by (rewrite !block_length, Hlen; reflexivity).
    revert Hd Hlb. generalize (block k (2 * i) h0), (block k (2 * i) h1), (block k (2 * i + 1) h0), (block k (2 * i + 1) h1).
    induction l as [|x l IH]; intros [|y l'] p q Hd Hlb; try discriminate; [split; [reflexivity|exact Hd]|].
    cbn [app] in Hd. injection Hd as -> Hd. apply IH in Hd; [|cbn in Hlb; lia]. destruct Hd as [-> ->]. split; reflexivity. }
  destruct Hl as [Ha Hb]. apply differ_false in Ha, Hb. destruct H; congruence.
Qed.
Lemma differ_child k i : differ (S k) i = true -> differ k (2 * i) = true \/ differ k (2 * i + 1) = true.
Proof.
  intros H. destruct (differ k (2 * i)) eqn:Ha; [left; reflexivity|]. destruct (differ k (2 * i + 1)) eqn:Hb; [right; reflexivity|].
  apply differ_false in Ha, Hb. exfalso. assert (differ (S k) i = false) by (apply differ_false; rewrite !block_split, Ha, Hb; reflexivity). congruence.
Qed.

(** the differing blocks of 2^k elements among the first 2^c *)
Definition bad_blocks (k c : nat) : list nat := filter (differ k) (seq 0 (2 ^ c)).
Lemma seq_double n : seq 0 (2 * n) = flat_map (fun i => [2 * i; 2 * i + 1]) (seq 0 n).
Proof.
  induction n as [|n IH]; [reflexivity|]. replace (2 * S n) with (S (S (2 * n))) by lia. rewrite !seq_S, IH. rewrite flat_map_app. cbn [flat_map app Nat.add].
  rewrite <- app_assoc. cbn [app]. do 4 f_equal. lia.
Qed.
Lemma filter_flat_map {A B} (f : B -> bool) (g : A -> list B) l : filter f (flat_map g l) = flat_map (fun a => filter f (g a)) l.
Proof. induction l as [|a l IH]; [reflexivity|]. cbn [flat_map]. rewrite filter_app, IH. reflexivity. Qed.
Lemma bad_next k c : filter (differ k) (kids_of k (length h0) (bad_blocks (S k) c)) = bad_blocks k (S c).
Proof.
  unfold bad_blocks. replace (2 ^ S c) with (2 * 2 ^ c) by reflexivity. rewrite seq_double. unfold kids_of. rewrite !filter_flat_map.
  assert (Hk : forall i, filter (differ k) (kids k (length h0) i) = filter (differ k) [2 * i; 2 * i + 1]).
  { intros i. unfold kids. destruct ((2 * i + 1) * 2 ^ k <? length h0) eqn:Hx; [reflexivity|]. apply Nat.ltb_ge in Hx. cbn [filter]. rewrite (differ_past k (2 * i + 1) Hx). reflexivity. }
  assert (Hn : forall i, differ (S k) i = false -> filter (differ k) [2 * i; 2 * i + 1] = []).
  { intros i Hd. cbn [filter]. destruct (differ k (2 * i)) eqn:Ha; [exfalso; rewrite (differ_parent k i) in Hd by (left; exact Ha); discriminate|].
    destruct (differ k (2 * i + 1)) eqn:Hb; [exfalso; rewrite (differ_parent k i) in Hd by (right; exact Hb); discriminate|]. reflexivity. }
  rewrite (flat_map_ext _ _ Hk). pose (g := fun i => filter (differ k) [2 * i; 2 * i + 1]). change (forall i, differ (S k) i = false -> g i = []) in Hn.
  change (flat_map g (filter (differ (S k)) (seq 0 (2 ^ c))) = flat_map g (seq 0 (2 ^ c))). clearbody g. clear Hk.
  induction (seq 0 (2 ^ c)) as [|i l IH]; [reflexivity|]. cbn [filter flat_map]. rewrite <- IH.
  destruct (differ (S k) i) eqn:Hd; cbn [flat_map]; [reflexivity|]. rewrite (Hn i Hd). reflexivity.
Qed.
Lemma bad_in k c i : In i (bad_blocks k c) -> differ k i = true.
Proof. intros H. apply filter_In in H. apply H. Qed.
Lemma bad_next_nonempty k c : bad_blocks (S k) c <> [] -> bad_blocks k (S c) <> [].
Proof.
  intros H. destruct (bad_blocks (S k) c) as [|i l] eqn:Hb; [contradiction|]. assert (Hi : In i (bad_blocks (S k) c)) by (rewrite Hb; left; reflexivity).
  apply filter_In in Hi. destruct Hi as [Hs Hd]. apply in_seq in Hs. apply differ_child in Hd.
  assert (Hex : exists j, In j (bad_blocks k (S c))).
  { destruct Hd as [Hd|Hd]; [exists (2 * i)|exists (2 * i + 1)]; (apply filter_In; split; [apply in_seq; cbn [Nat.pow]; lia|exact Hd]). }
  destruct Hex as [j Hj] . intros He. rewrite He in Hj. exact Hj.
Qed.
Hypothesis Hnc : no_collision E h0 h1.
(** comparing roots is comparing blocks *)
Lemma root_differ k j : k <= Nat.log2_up (length h0) -> j * 2 ^ k < length h0 ->
  negb (bytes_eqb (root_or E (block k j h0)) (root_or E (block k j h1))) = differ k j.
Proof.
  intros Hk Hj. destruct (differ k j) eqn:Hd.
  - destruct (bytes_eqb _ _) eqn:He; [|reflexivity]. exfalso. apply bytes_eqb_eq in He.
    assert (H : block k j h0 = block k j h1).
    { apply Hnc; [exact Hk|exact Hj|]. rewrite !root_or_some by (apply block_nonempty; lia). f_equal. exact He. }
    apply differ_false in H. congruence.
  - apply differ_false in Hd. rewrite Hd, bytes_eqb_refl. reflexivity.
Qed.
End Differ.
