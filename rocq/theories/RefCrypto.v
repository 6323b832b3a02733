(** Executable AES-128 and BLAKE3 (inputs up to one chunk of 1024 bytes), used only to build concrete
    environments for examples and counterexamples, so that those run the real primitives.  No
    theorem with a universally quantified environment depends on this file.  Checked below against
    published test vectors. *)
From Verif Require Import Base.
Local Open Scope N_scope.

Definition sbox : list N :=
  [99; 124; 119; 123; 242; 107; 111; 197; 48; 1; 103; 43; 254; 215; 171; 118; 202; 130; 201; 125; 250; 89; 71;
   240; 173; 212; 162; 175; 156; 164; 114; 192; 183; 253; 147; 38; 54; 63; 247; 204; 52; 165; 229; 241; 113; 216;
   49; 21; 4; 199; 35; 195; 24; 150; 5; 154; 7; 18; 128; 226; 235; 39; 178; 117; 9; 131; 44; 26; 27; 110; 90;
   160; 82; 59; 214; 179; 41; 227; 47; 132; 83; 209; 0; 237; 32; 252; 177; 91; 106; 203; 190; 57; 74; 76; 88;
   207; 208; 239; 170; 251; 67; 77; 51; 133; 69; 249; 2; 127; 80; 60; 159; 168; 81; 163; 64; 143; 146; 157; 56;
   245; 188; 182; 218; 33; 16; 255; 243; 210; 205; 12; 19; 236; 95; 151; 68; 23; 196; 167; 126; 61; 100; 93; 25;
   115; 96; 129; 79; 220; 34; 42; 144; 136; 70; 238; 184; 20; 222; 94; 11; 219; 224; 50; 58; 10; 73; 6; 36; 92;
   194; 211; 172; 98; 145; 149; 228; 121; 231; 200; 55; 109; 141; 213; 78; 169; 108; 86; 244; 234; 101; 122; 174;
   8; 186; 120; 37; 46; 28; 166; 180; 198; 232; 221; 116; 31; 75; 189; 139; 138; 112; 62; 181; 102; 72; 3; 246;
   14; 97; 53; 87; 185; 134; 193; 29; 158; 225; 248; 152; 17; 105; 217; 142; 148; 155; 30; 135; 233; 206; 85; 40;
   223; 140; 161; 137; 13; 191; 230; 66; 104; 65; 153; 45; 15; 176; 84; 187; 22].
Definition sub_byte (b : N) : N := nth (N.to_nat b) sbox 0.
Definition xtime (b : N) : N := if 128 <=? b then N.lxor (2 * b) 283 else 2 * b.
Fixpoint xorl (a b : list N) : list N :=
  match a, b with x :: a', y :: b' => N.lxor x y :: xorl a' b' | _, _ => [] end.
(** the state is a list of 16 bytes, column by column *)
Definition shift_rows (s : list N) : list N :=
  map (fun i => nth i s 0) [0; 5; 10; 15; 4; 9; 14; 3; 8; 13; 2; 7; 12; 1; 6; 11]%nat.
Fixpoint mix_columns (s : list N) : list N :=
  match s with
  | a :: b :: c :: d :: s' =>
      let t := N.lxor (N.lxor a b) (N.lxor c d) in
      N.lxor a (N.lxor t (xtime (N.lxor a b))) :: N.lxor b (N.lxor t (xtime (N.lxor b c))) ::
      N.lxor c (N.lxor t (xtime (N.lxor c d))) :: N.lxor d (N.lxor t (xtime (N.lxor d a))) :: mix_columns s'
  | _ => []
  end.
Definition next_round_key (k : list N) (rcon : N) : list N :=
  let w i := firstn 4 (skipn (4 * i) k) in
  let t := map sub_byte (skipn 1 (w 3%nat) ++ firstn 1 (w 3%nat)) in
  let t := xorl t [rcon; 0; 0; 0] in
  let w0 := xorl (w 0%nat) t in
  let w1 := xorl (w 1%nat) w0 in
  let w2 := xorl (w 2%nat) w1 in
  let w3 := xorl (w 3%nat) w2 in
  w0 ++ w1 ++ w2 ++ w3.
Fixpoint aes_rounds (rcons : list N) (k s : list N) : list N :=
  match rcons with
  | [] => s
  | [r] => xorl (shift_rows (map sub_byte s)) (next_round_key k r)
  | r :: rs => let k' := next_round_key k r in
               aes_rounds rs k' (xorl (mix_columns (shift_rows (map sub_byte s))) k')
  end.
Definition aes128 (key block : list N) : list N :=
  aes_rounds [1; 2; 4; 8; 16; 32; 64; 128; 27; 54] key (xorl block key).

(** FIPS-197 appendix C.1 *)
Example aes_fips : aes128 (map N.of_nat (seq 0 16)) (map (fun i => 17 * N.of_nat i) (seq 0 16)) =
  [0x69; 0xc4; 0xe0; 0xd8; 0x6a; 0x7b; 0x04; 0x30; 0xd8; 0xcd; 0xb7; 0x80; 0x70; 0xb4; 0xc5; 0x5a].
Proof. vm_compute. reflexivity. Qed.
(** AES-128 of the zero block under the zero key *)
Example aes_zero : aes128 (repeat 0 16) (repeat 0 16) =
  [0x66; 0xe9; 0x4b; 0xd4; 0xef; 0x8a; 0x2c; 0x3b; 0x88; 0x4c; 0xfa; 0x59; 0xca; 0x34; 0x2b; 0x2e].
Proof. vm_compute. reflexivity. Qed.

(** BLAKE3 *)
Definition M32 : N := 4294967296.
Definition add32 (a b : N) : N := (a + b) mod M32.
Definition rotr (x : N) (k : N) : N := N.lor (N.shiftr x k) ((N.shiftl x (32 - k)) mod M32).
Definition iv : list N := [0x6A09E667; 0xBB67AE85; 0x3C6EF372; 0xA54FF53A; 0x510E527F; 0x9B05688C; 0x1F83D9AB; 0x5BE0CD19].
Definition gmix (st : list N) (a b c d : nat) (mx my : N) : list N :=
  let va := nth a st 0 in let vb := nth b st 0 in let vc := nth c st 0 in let vd := nth d st 0 in
  let va := add32 (add32 va vb) mx in
  let vd := rotr (N.lxor vd va) 16 in
  let vc := add32 vc vd in
  let vb := rotr (N.lxor vb vc) 12 in
  let va := add32 (add32 va vb) my in
  let vd := rotr (N.lxor vd va) 8 in
  let vc := add32 vc vd in
  let vb := rotr (N.lxor vb vc) 7 in
  update a va (update b vb (update c vc (update d vd st))).
Definition ground (st m : list N) : list N :=
  let x i := nth i m 0 in
  let st := gmix st 0 4 8 12 (x 0%nat) (x 1%nat) in
  let st := gmix st 1 5 9 13 (x 2%nat) (x 3%nat) in
  let st := gmix st 2 6 10 14 (x 4%nat) (x 5%nat) in
  let st := gmix st 3 7 11 15 (x 6%nat) (x 7%nat) in
  let st := gmix st 0 5 10 15 (x 8%nat) (x 9%nat) in
  let st := gmix st 1 6 11 12 (x 10%nat) (x 11%nat) in
  let st := gmix st 2 7 8 13 (x 12%nat) (x 13%nat) in
  gmix st 3 4 9 14 (x 14%nat) (x 15%nat).
Definition mperm (m : list N) : list N :=
  map (fun i => nth i m 0) [2; 6; 3; 10; 7; 0; 4; 13; 1; 11; 12; 5; 9; 14; 15; 8]%nat.
Fixpoint grounds (n : nat) (st m : list N) : list N :=
  match n with O => st | S n' => grounds n' (ground st m) (mperm m) end.
Definition compress (cv m : list N) (len flags : N) : list N :=
  let st := cv ++ firstn 4 iv ++ [0; 0; len; flags] in
  let st := grounds 7 st m in
  xorl (firstn 8 st) (skipn 8 st).
Fixpoint words (b : list N) : list N :=
  match b with
  | a :: b' :: c :: d :: r => (a + 256 * (b' + 256 * (c + 256 * d))) :: words r
  | _ => []
  end.
Definition pad (b : list N) : list N := b ++ repeat 0 (64 - length b).
Fixpoint chunk_loop (fuel : nat) (cv b : list N) (start : N) : list N :=
  match fuel with
  | O => cv
  | S f =>
      if (length b <=? 64)%nat
      then compress cv (words (pad b)) (N.of_nat (length b)) (N.lor start (N.lor 2 8))
      else chunk_loop f (compress cv (words (firstn 64 b)) 64 start) (skipn 64 b) 0
  end.
Definition blake3_ref (b : list N) : list N :=
  concat (map (le_bytes 4) (chunk_loop (S (length b)) iv b 1)).

(** published vectors for "" and "abc" *)
Example blake3_empty : le_num (rev (blake3_ref [])) = 0xaf1349b9f5f9a1a6a0404dea36dcc9499bcb25c9adc112b7cc9a93cae41f3262.
Proof. vm_compute. reflexivity. Qed.
Example blake3_abc : le_num (rev (blake3_ref [97; 98; 99])) = 0x6437b3ac38465133ffb63b75273a8db548c558465d79db03fd359c6cd5bd9d85.
Proof. vm_compute. reflexivity. Qed.
