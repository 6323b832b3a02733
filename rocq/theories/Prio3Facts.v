(** Prio3 for the histogram type: honest reports finish, spoilt ones are refused, and what is finished was
    checked with one joint randomness. *)
From Verif Require Import Base BaseFacts Field Util UtilFacts Env Collect Server Driver Modes PrimeFacts Histogram Prio3 PolyFacts HistFacts HistSound HistRun HistSplit
  SpecVidpf SpecCollect SpecMetrics SpecWhh SpecModes SpecHist SpecPrio3 FlpFacts VidpfFacts ModesFacts.

(** *** encodings *)
Lemma dec_enc_fld a : dec_fld (get_encoded a) = Some a.
Proof.
  unfold dec_fld, get_encoded. pose proof (fval_range a) as Hr. rewrite le_num_bytes.
  - rewrite Z2N.id by lia. destruct (Z.ltb_spec (fval a) P); [|lia]. unfold of_N. rewrite Z2N.id by lia. f_equal. apply of_Z_fval.
  - assert (P < 2 ^ 128)%Z by reflexivity. change (256 ^ N.of_nat 16)%N with (2 ^ 128)%N. lia.
Qed.
Lemma get_encoded_length a : length (get_encoded a) = 16.
Proof. apply le_bytes_length. Qed.
Lemma enc_length l : length (enc_vec l) = 16 * length l.
Proof. induction l as [|a l IH]; [reflexivity|]. unfold enc_vec in *. cbn [flat_map length]. rewrite app_length, IH, get_encoded_length. lia. Qed.
Lemma skipn_exact {A} n (a b : list A) : length a = n -> skipn n (a ++ b) = b.
Proof. intros <-. rewrite skipn_app, skipn_all, Nat.sub_diag. reflexivity. Qed.
Lemma firstn_exact {A} n (a b : list A) : length a = n -> firstn n (a ++ b) = a.
Proof. intros <-. rewrite firstn_app, firstn_all, Nat.sub_diag, firstn_O. apply app_nil_r. Qed.
Lemma dec_enc l : forall rest n, length l = n -> dec_vec n (enc_vec l ++ rest) = Some l.
Proof.
  induction l as [|a l IH]; intros rest n <-; [reflexivity|]. unfold enc_vec in *. cbn [length flat_map dec_vec]. rewrite <- app_assoc.
  rewrite (firstn_exact 16), (skipn_exact 16) by apply get_encoded_length. rewrite dec_enc_fld, (IH _ _ eq_refl). reflexivity.
Qed.
Lemma piece_second a b : length b = 16 -> piece (length a) 16 (a ++ b) = b.
Proof. intros Hb. unfold piece. rewrite skipn_exact by reflexivity. rewrite <- Hb. apply firstn_all. Qed.
Lemma piece_after l n b : length l = n -> length b = 16 -> piece (16 * n) 16 (enc_vec l ++ b) = b.
Proof. intros <- Hb. rewrite <- enc_length. apply piece_second. exact Hb. Qed.
Lemma piece_first a b : length a = 16 -> piece 0 16 (a ++ b) = a.
Proof. intros Ha. unfold piece. cbn [skipn]. apply firstn_exact. exact Ha. Qed.
Lemma piece_length a n b : a + n <= length b -> length (piece a n b) = n.
Proof. intros H. unfold piece. rewrite firstn_length, skipn_length. lia. Qed.

Lemma bytes_eqb_iff a : forall b, bytes_eqb a b = true <-> a = b.
Proof.
  induction a as [|x a IH]; intros [|y b]; cbn; try (split; [discriminate|discriminate]); [tauto|].
  rewrite andb_true_iff, N.eqb_eq. unfold bytes_eqb in IH. rewrite IH. split; [intros [-> ->]; reflexivity|intros H; injection H; auto].
Qed.

Lemma query_length c len x p r j n v : hist_query c len x p r j n = Some v -> length x = len /\ length p = proof_len c len /\ length v = verifier_len c.
Proof.
  unfold hist_query. destruct (Nat.eqb_spec (length x) len) as [Hx|]; [|discriminate]. destruct (Nat.eqb_spec (length p) (proof_len c len)) as [Hp|]; [|discriminate].
  destruct (_ && _); [|discriminate]. cbv zeta. destruct (feqb _ _); [discriminate|]. intros Hv. split; [exact Hx|]. split; [exact Hp|].
  apply (f_equal (fun o => match o with Some x => length x | None => 0 end)) in Hv. cbv beta iota in Hv. rewrite <- Hv. match goal with |- length (?a :: ?l) = _ => change (S (length l) = verifier_len c) end.
  rewrite app_length, map_length. unfold wire_polys. rewrite map_length, seq_length. unfold verifier_len. cbn [length]. lia.
Qed.

Section Len.
Variable E : env.
Hypothesis Hok : env_ok E.
Variable len : nat.
Hypothesis Hlen : hist_ok len = true.
Let c := chunk_length_plain len.

Lemma c_pos : 0 < c.
Proof. unfold c, chunk_length_plain. pose proof (proj1 (hist_ok_bound len Hlen)) as H. apply (PeanoNat.Nat.sqrt_le_mono 1 len). exact H. Qed.
Lemma xb_length s d u n : length (xof_bytes E s d u n) = n.
Proof. destruct Hok as (_ & _ & H & _). apply H. Qed.
Lemma xf_length s d u n : length (xof_field E s d u n) = n.
Proof. destruct Hok as (_ & _ & _ & H & _). apply H. Qed.
Lemma joint_len s : p3_joint_rand E s = [nth 0 (p3_joint_rand E s) fzero; nth 1 (p3_joint_rand E s) fzero].
Proof. apply two. apply xf_length. Qed.
Lemma one (l : list fld) : length l = 1 -> l = [nth 0 l fzero].
Proof. clear. destruct l as [|a [|b l]]; try discriminate. reflexivity. Qed.
Lemma query_len vk nonce : p3_query_rand E vk nonce = [nth 0 (p3_query_rand E vk nonce) fzero].
Proof. apply one, xf_length. Qed.

(** *** the steps of the preparation on encoded data *)
Lemma msg_spec v0 v1 q0 q1 : length v0 = verifier_len c -> length v1 = verifier_len c -> length q0 = 16 -> length q1 = 16 ->
  p3_concrete_msg E len (enc_vec v0 ++ q0) (enc_vec v1 ++ q1) = match hist_decide c (add_shares v0 v1) with Some true => Some (p3_joint_seed E q0 q1) | _ => None end.
Proof.
  intros H0 H1 L0 L1. unfold p3_concrete_msg. fold c. rewrite (dec_enc v0 _ _ H0), (dec_enc v1 _ _ H1). fold (add_shares v0 v1).
  rewrite (piece_after v0 _ q0 H0 L0), (piece_after v1 _ q1 H1 L1). reflexivity.
Qed.
Lemma next_spec x seed m : length x = len -> length seed = 16 -> p3_concrete_next len (enc_vec x ++ seed) m = if bytes_eqb seed m then Some (P3Finish x) else None.
Proof.
  intros Hx Hs. unfold p3_concrete_next. rewrite (dec_enc x _ _ Hx), (piece_after x _ seed Hx Hs). destruct (bytes_eqb seed m); reflexivity.
Qed.
Lemma decode_spec x seed v q : length x = len -> length seed = 16 -> length v = verifier_len c -> length q = 16 ->
  p3_concrete_decode (enc_vec x ++ seed) (enc_vec v ++ q) = Some (enc_vec v ++ q).
Proof. clear Hlen.
  intros Hx Hs Hv Hq. unfold p3_concrete_decode. rewrite !app_length, !enc_length, Hx, Hs, Hv, Hq.
  replace ((16 * len + 16) / 16 - 1) with len; [fold c; rewrite Nat.eqb_refl, (dec_enc v _ _ Hv); reflexivity|].
  replace (16 * len + 16) with ((len + 1) * 16) by lia. rewrite Nat.div_mul by lia. lia.
Qed.
(** the first step, for a decoded input share *)
Definition own_seed (id : nat) (own pub : bytes) : bytes :=
  match id with 0 => p3_joint_seed E own (piece 16 16 pub) | _ => p3_joint_seed E (piece 0 16 pub) own end.
Lemma own_seed_length id own pub : length (own_seed id own pub) = 16.
Proof. destruct id; apply xb_length. Qed.
Lemma init_spec vk id nonce pub inp st sh : p3_concrete_init E len vk id nonce pub inp = Some (st, sh) <->
  length pub = 32 /\ exists x p blind v, p3_input E len id inp = Some (x, p, blind) /\
    hist_query c len x p (p3_query_rand E vk nonce) (p3_joint_rand E (own_seed id (p3_part E (N.of_nat id) blind nonce x) pub)) 2 = Some v /\
    st = enc_vec x ++ own_seed id (p3_part E (N.of_nat id) blind nonce x) pub /\ sh = enc_vec v ++ p3_part E (N.of_nat id) blind nonce x.
Proof.
  unfold p3_concrete_init. fold c. destruct (Nat.eqb_spec (length pub) 32) as [Hp|Hp]; cbn [negb].
  - destruct (p3_input E len id inp) as [[[x p] blind]|].
    + fold (own_seed id (p3_part E (N.of_nat id) blind nonce x) pub). split.
      * destruct (hist_query _ _ _ _ _ _ _) as [v|] eqn:Hq; [|discriminate]. intros H. injection H as <- <-. split; [exact Hp|]. exists x, p, blind, v. auto.
      * intros (_ & x' & p' & b' & v & Hi & Hq & -> & ->). injection Hi as <- <- <-. rewrite Hq. reflexivity.
    + split; [discriminate|]. intros (_ & x & p & b & v & H & _). discriminate H.
  - split; [discriminate|]. intros (H & _). contradiction.
Qed.
Lemma leader_input x p blind : length x = len -> length p = proof_len c len -> length blind = 16 ->
  p3_input E len 0 (enc_vec x ++ enc_vec p ++ blind) = Some (x, p, blind).
Proof.
  intros Hx Hp Hb. unfold p3_input. fold c. rewrite !app_length, !enc_length, Hx, Hp, Hb, Nat.eqb_refl. cbn [negb]. rewrite (dec_enc x _ _ Hx).
  rewrite (skipn_exact (16 * len)) by (rewrite enc_length, Hx; reflexivity). rewrite (dec_enc p _ _ Hp). rewrite app_assoc.
  replace (16 * len + 16 * proof_len c len) with (length (enc_vec x ++ enc_vec p)) by (rewrite app_length, !enc_length, Hx, Hp; reflexivity).
  rewrite (piece_second _ _ Hb). reflexivity.
Qed.

(** *** the uploads of the simulated clients *)
Lemma seeds_length cl : length (pc_rand cl) = 80 -> length (p3_seed cl) = 16 /\ length (p3_proof_seed cl) = 16 /\ length (p3_helper_blind cl) = 16 /\ length (p3_leader_blind cl) = 16 /\ length (p3_prove_seed cl) = 16.
Proof. clear. intros H. repeat split; apply piece_length; lia. Qed.
Lemma helper_bytes cl : length (pc_rand cl) = 80 -> piece 0 48 (pc_rand cl) = p3_seed cl ++ p3_proof_seed cl ++ p3_helper_blind cl.
Proof. clear.
  intros H. unfold p3_seed, p3_proof_seed, p3_helper_blind, piece. cbn [skipn].
  rewrite <- (firstn_skipn 16 (firstn 48 (pc_rand cl))) at 1. rewrite firstn_firstn. f_equal. rewrite skipn_firstn_comm. cbn [Nat.sub].
  rewrite <- (firstn_skipn 16 (firstn 32 (skipn 16 (pc_rand cl)))) at 1. rewrite firstn_firstn. f_equal. rewrite skipn_firstn_comm, skipn_skipn'. reflexivity.
Qed.
Lemma helper_input s p b : length s = 16 -> length p = 16 -> length b = 16 -> p3_input E len 1 (s ++ p ++ b) = Some (p3_helper_share E len s, p3_helper_proof E len p, b).
Proof. clear Hlen Hok.
  intros Hs Hp Hb. unfold p3_input. rewrite !app_length, Hs, Hp, Hb. cbn [Nat.add Nat.eqb negb]. rewrite (piece_first _ _ Hs).
  assert (H1 : piece 16 16 (s ++ p ++ b) = p) by (unfold piece; rewrite (skipn_exact 16) by exact Hs; apply firstn_exact; exact Hp).
  assert (H2 : piece 32 16 (s ++ p ++ b) = b) by (rewrite app_assoc; replace 32 with (length (s ++ p)) by (rewrite app_length; lia); apply piece_second; exact Hb).
  rewrite H1, H2. reflexivity.
Qed.
Lemma zip_sub_length (a b : list fld) : length b = length a -> length (zip_sub a b) = length a.
Proof. clear. intros H. destruct (zip_sub_shares a b H) as (_ & H1 & _). exact H1. Qed.
Lemma shares_swap a b v : shares_of a b v -> shares_of b a v.
Proof. clear. intros (H0 & H1 & H). split; [exact H1|]. split; [exact H0|]. intros i u w Hu Hw. rewrite (H i w u Hw Hu). f_equal. ring. Qed.
Lemma leader_length cl : length (p3_leader_x E len cl) = len.
Proof. unfold p3_leader_x. rewrite zip_sub_length; rewrite one_hot_length; [reflexivity|]. apply xf_length. Qed.

Lemma proof_exists cl : exists proof, p3_proof E len cl proof /\ length proof = proof_len c len.
Proof.
  destruct (proj2 (prover_total c len (one_hot len (pc_bucket cl)) (xof_field E (p3_prove_seed cl) dst_prove_randomness [] (2 * c)) (p3_joint E len cl))) as (proof & Hp).
  - split; [apply one_hot_length|]. split; apply xf_length.
  - exists proof. split; [exact Hp|]. revert Hp. unfold p3_joint. rewrite joint_len. set (pr := xof_field E _ _ _ _). clearbody pr. rewrite (prove_eq c len).
    destruct (_ =? _); [|discriminate]. destruct (Nat.eqb_spec (length pr) (arity c)) as [Hl|]; [|discriminate]. cbn [andb].
    set (g := gadget_poly _ _ _ _ _). assert (Hg : length g = gadget_poly_len c len) by (apply gadget_poly_length; exact c_pos || exact Hlen). clearbody g.
    intros H. injection H as <-. rewrite app_length, Hl, Hg. reflexivity.
Qed.
Lemma shard_spec cl : pc_bucket cl < len -> length (pc_rand cl) = 80 -> exists proof, p3_proof E len cl proof /\ length proof = proof_len c len /\
  p3_shard E len (pc_bucket cl) (pc_nonce cl) (pc_rand cl) =
    Some (p3_leader_part E len cl ++ p3_part E 1 (p3_helper_blind cl) (pc_nonce cl) (p3_helper_x E len cl),
      (enc_vec (p3_leader_x E len cl) ++ enc_vec (zip_sub proof (p3_helper_proof E len (p3_proof_seed cl))) ++ p3_leader_blind cl,
       p3_seed cl ++ p3_proof_seed cl ++ p3_helper_blind cl)).
Proof.
  intros Hb Hr. destruct (proof_exists cl) as (proof & Hp & Hl). exists proof. split; [exact Hp|]. split; [exact Hl|].
  unfold p3_shard. rewrite (proj2 (Nat.ltb_lt _ _) Hb), Hr. cbn [Nat.eqb andb negb]. unfold p3_proof in Hp. rewrite <- (helper_bytes cl Hr).
  change (arity (chunk_length_plain len)) with (2 * chunk_length_plain len). unfold p3_joint, p3_leader_part, p3_leader_x, p3_helper_x, p3_seed, p3_leader_blind, p3_helper_blind, p3_prove_seed in *.
  rewrite Hp. reflexivity.
Qed.

Lemma pub_parts a b : length a = 16 -> length b = 16 -> length (a ++ b) = 32 /\ piece 0 16 (a ++ b) = a /\ piece 16 16 (a ++ b) = b.
Proof. clear.
  intros Ha Hb. split; [rewrite app_length; lia|]. split; [apply piece_first; exact Ha|]. replace 16 with (length a) at 1 by exact Ha. apply piece_second. exact Hb.
Qed.
Lemma part_length id b n x : length (p3_part E id b n x) = 16.
Proof. apply xb_length. Qed.

(** how the preparation of an upload goes, for any helper seed *)
Lemma upload_run vk cl s proof pub i0 : length (pc_rand cl) = 80 -> ~ on_domain c len (p3_point E vk cl) -> length s = 16 -> length proof = proof_len c len ->
  let p1 := p3_helper_proof E len (p3_proof_seed cl) in let x1 := p3_helper_share E len s in
  let part1 := p3_part E 1 (p3_helper_blind cl) (pc_nonce cl) x1 in
  pub = p3_leader_part E len cl ++ p3_part E 1 (p3_helper_blind cl) (pc_nonce cl) (p3_helper_x E len cl) ->
  i0 = enc_vec (p3_leader_x E len cl) ++ enc_vec (zip_sub proof p1) ++ p3_leader_blind cl ->
  let j1 := p3_joint_rand E (p3_joint_seed E (p3_leader_part E len cl) part1) in
  exists v0 v1 st0 sh0 st1 sh1,
    hist_query c len (p3_leader_x E len cl) (zip_sub proof p1) [p3_point E vk cl] (p3_joint E len cl) 2 = Some v0 /\
    hist_query c len x1 p1 [p3_point E vk cl] j1 2 = Some v1 /\
    p3_concrete_init E len vk 0 (pc_nonce cl) pub i0 = Some (st0, sh0) /\
    p3_concrete_init E len vk 1 (pc_nonce cl) pub (s ++ p3_proof_seed cl ++ p3_helper_blind cl) = Some (st1, sh1) /\
    p3_concrete_decode st0 sh1 = Some sh1 /\ p3_concrete_decode st1 sh0 = Some sh0 /\
    p3_concrete_msg E len sh0 sh1 = match hist_decide c (add_shares v0 v1) with Some true => Some (p3_joint_seed E (p3_leader_part E len cl) part1) | _ => None end /\
    (forall m, p3_concrete_next len st0 m = if bytes_eqb (p3_joint_seed E (p3_leader_part E len cl) (p3_part E 1 (p3_helper_blind cl) (pc_nonce cl) (p3_helper_x E len cl))) m then Some (P3Finish (p3_leader_x E len cl)) else None) /\
    (forall m, p3_concrete_next len st1 m = if bytes_eqb (p3_joint_seed E (p3_leader_part E len cl) part1) m then Some (P3Finish x1) else None).
Proof.
  clear Hlen. intros Hr Hoff Hs Hl p1 x1 part1 Hpub Hi0 j1. destruct (seeds_length cl Hr) as (S1 & S2 & S3 & S4 & S5).
  set (hp := p3_part E 1 (p3_helper_blind cl) (pc_nonce cl) (p3_helper_x E len cl)) in *. set (lp := p3_leader_part E len cl) in *.
  destruct (pub_parts lp hp (part_length _ _ _ _) (part_length _ _ _ _)) as (P1 & P2 & P3). rewrite <- Hpub in P1, P2, P3.
  assert (Lp1 : length p1 = proof_len c len) by apply xf_length. assert (Lx1 : length x1 = len) by apply xf_length.
  assert (Lp0 : length (zip_sub proof p1) = proof_len c len) by (rewrite zip_sub_length; lia).
  assert (Q : forall x p j, length x = len -> length p = proof_len c len -> length j = 2 -> exists v, hist_query c len x p [p3_point E vk cl] j 2 = Some v /\ length v = verifier_len c).
  { intros x p j Hx Hp Hj. rewrite (two _ Hj), query_eq, Hx, Hp, !Nat.eqb_refl. cbn [andb]. destruct (feqb _ fone) eqn:Ef; [apply feqb_eq in Ef; contradiction|].
    eexists. split; [reflexivity|]. assert (Hq := query_eq c len x p (p3_point E vk cl) (nth 0 j fzero) (nth 1 j fzero) 2). rewrite Hx, Hp, !Nat.eqb_refl, Ef in Hq. cbn [andb] in Hq. apply query_length in Hq. apply Hq. }
  destruct (Q (p3_leader_x E len cl) (zip_sub proof p1) (p3_joint E len cl) (leader_length cl) Lp0 (xf_length _ _ _ _)) as (v0 & V0 & L0).
  destruct (Q x1 p1 j1 Lx1 Lp1 (xf_length _ _ _ _)) as (v1 & V1 & L1).
  exists v0, v1, (enc_vec (p3_leader_x E len cl) ++ p3_joint_seed E lp hp), (enc_vec v0 ++ lp), (enc_vec x1 ++ p3_joint_seed E lp part1), (enc_vec v1 ++ part1).
  assert (Lj : forall a b, length (p3_joint_seed E a b) = 16) by (intros; apply xb_length).
  split; [exact V0|]. split; [exact V1|]. split; [|split; [|split; [|split; [|split; [|split]]]]].
  - apply init_spec. split; [exact P1|]. exists (p3_leader_x E len cl), (zip_sub proof p1), (p3_leader_blind cl), v0. split; [rewrite Hi0; apply leader_input; auto using leader_length|].
    change (p3_part E (N.of_nat 0) (p3_leader_blind cl) (pc_nonce cl) (p3_leader_x E len cl)) with lp. unfold own_seed. rewrite P3. rewrite query_len. split; [exact V0|]. split; reflexivity.
  - apply init_spec. split; [exact P1|]. exists x1, p1, (p3_helper_blind cl), v1. split; [apply helper_input; assumption|].
    change (p3_part E (N.of_nat 1) (p3_helper_blind cl) (pc_nonce cl) x1) with part1. unfold own_seed. rewrite P2. rewrite query_len. split; [exact V1|]. split; reflexivity.
  - apply decode_spec; auto using leader_length. apply part_length.
  - apply decode_spec; auto. apply part_length.
  - apply msg_spec; auto; apply part_length.
  - intros m. apply next_spec; auto using leader_length.
  - intros m. apply next_spec; auto.
Qed.
End Len.
