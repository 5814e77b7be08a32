(** AES-128 (FIPS 197) and AES key wrap (RFC 3394), to have concrete instances of the functions the key management
    facts quantify over. Not part of /repo (crates aes and aes-kw). *)
From Verif Require Import Base SpecBase.
Local Open Scope N_scope.

Definition sbox_table : bytes :=
  [0x63; 0x7c; 0x77; 0x7b; 0xf2; 0x6b; 0x6f; 0xc5; 0x30; 0x01; 0x67; 0x2b; 0xfe; 0xd7; 0xab; 0x76;
   0xca; 0x82; 0xc9; 0x7d; 0xfa; 0x59; 0x47; 0xf0; 0xad; 0xd4; 0xa2; 0xaf; 0x9c; 0xa4; 0x72; 0xc0;
   0xb7; 0xfd; 0x93; 0x26; 0x36; 0x3f; 0xf7; 0xcc; 0x34; 0xa5; 0xe5; 0xf1; 0x71; 0xd8; 0x31; 0x15;
   0x04; 0xc7; 0x23; 0xc3; 0x18; 0x96; 0x05; 0x9a; 0x07; 0x12; 0x80; 0xe2; 0xeb; 0x27; 0xb2; 0x75;
   0x09; 0x83; 0x2c; 0x1a; 0x1b; 0x6e; 0x5a; 0xa0; 0x52; 0x3b; 0xd6; 0xb3; 0x29; 0xe3; 0x2f; 0x84;
   0x53; 0xd1; 0x00; 0xed; 0x20; 0xfc; 0xb1; 0x5b; 0x6a; 0xcb; 0xbe; 0x39; 0x4a; 0x4c; 0x58; 0xcf;
   0xd0; 0xef; 0xaa; 0xfb; 0x43; 0x4d; 0x33; 0x85; 0x45; 0xf9; 0x02; 0x7f; 0x50; 0x3c; 0x9f; 0xa8;
   0x51; 0xa3; 0x40; 0x8f; 0x92; 0x9d; 0x38; 0xf5; 0xbc; 0xb6; 0xda; 0x21; 0x10; 0xff; 0xf3; 0xd2;
   0xcd; 0x0c; 0x13; 0xec; 0x5f; 0x97; 0x44; 0x17; 0xc4; 0xa7; 0x7e; 0x3d; 0x64; 0x5d; 0x19; 0x73;
   0x60; 0x81; 0x4f; 0xdc; 0x22; 0x2a; 0x90; 0x88; 0x46; 0xee; 0xb8; 0x14; 0xde; 0x5e; 0x0b; 0xdb;
   0xe0; 0x32; 0x3a; 0x0a; 0x49; 0x06; 0x24; 0x5c; 0xc2; 0xd3; 0xac; 0x62; 0x91; 0x95; 0xe4; 0x79;
   0xe7; 0xc8; 0x37; 0x6d; 0x8d; 0xd5; 0x4e; 0xa9; 0x6c; 0x56; 0xf4; 0xea; 0x65; 0x7a; 0xae; 0x08;
   0xba; 0x78; 0x25; 0x2e; 0x1c; 0xa6; 0xb4; 0xc6; 0xe8; 0xdd; 0x74; 0x1f; 0x4b; 0xbd; 0x8b; 0x8a;
   0x70; 0x3e; 0xb5; 0x66; 0x48; 0x03; 0xf6; 0x0e; 0x61; 0x35; 0x57; 0xb9; 0x86; 0xc1; 0x1d; 0x9e;
   0xe1; 0xf8; 0x98; 0x11; 0x69; 0xd9; 0x8e; 0x94; 0x9b; 0x1e; 0x87; 0xe9; 0xce; 0x55; 0x28; 0xdf;
   0x8c; 0xa1; 0x89; 0x0d; 0xbf; 0xe6; 0x42; 0x68; 0x41; 0x99; 0x2d; 0x0f; 0xb0; 0x54; 0xbb; 0x16].
Definition inv_sbox_table : bytes :=
  [0x52; 0x09; 0x6a; 0xd5; 0x30; 0x36; 0xa5; 0x38; 0xbf; 0x40; 0xa3; 0x9e; 0x81; 0xf3; 0xd7; 0xfb;
   0x7c; 0xe3; 0x39; 0x82; 0x9b; 0x2f; 0xff; 0x87; 0x34; 0x8e; 0x43; 0x44; 0xc4; 0xde; 0xe9; 0xcb;
   0x54; 0x7b; 0x94; 0x32; 0xa6; 0xc2; 0x23; 0x3d; 0xee; 0x4c; 0x95; 0x0b; 0x42; 0xfa; 0xc3; 0x4e;
   0x08; 0x2e; 0xa1; 0x66; 0x28; 0xd9; 0x24; 0xb2; 0x76; 0x5b; 0xa2; 0x49; 0x6d; 0x8b; 0xd1; 0x25;
   0x72; 0xf8; 0xf6; 0x64; 0x86; 0x68; 0x98; 0x16; 0xd4; 0xa4; 0x5c; 0xcc; 0x5d; 0x65; 0xb6; 0x92;
   0x6c; 0x70; 0x48; 0x50; 0xfd; 0xed; 0xb9; 0xda; 0x5e; 0x15; 0x46; 0x57; 0xa7; 0x8d; 0x9d; 0x84;
   0x90; 0xd8; 0xab; 0x00; 0x8c; 0xbc; 0xd3; 0x0a; 0xf7; 0xe4; 0x58; 0x05; 0xb8; 0xb3; 0x45; 0x06;
   0xd0; 0x2c; 0x1e; 0x8f; 0xca; 0x3f; 0x0f; 0x02; 0xc1; 0xaf; 0xbd; 0x03; 0x01; 0x13; 0x8a; 0x6b;
   0x3a; 0x91; 0x11; 0x41; 0x4f; 0x67; 0xdc; 0xea; 0x97; 0xf2; 0xcf; 0xce; 0xf0; 0xb4; 0xe6; 0x73;
   0x96; 0xac; 0x74; 0x22; 0xe7; 0xad; 0x35; 0x85; 0xe2; 0xf9; 0x37; 0xe8; 0x1c; 0x75; 0xdf; 0x6e;
   0x47; 0xf1; 0x1a; 0x71; 0x1d; 0x29; 0xc5; 0x89; 0x6f; 0xb7; 0x62; 0x0e; 0xaa; 0x18; 0xbe; 0x1b;
   0xfc; 0x56; 0x3e; 0x4b; 0xc6; 0xd2; 0x79; 0x20; 0x9a; 0xdb; 0xc0; 0xfe; 0x78; 0xcd; 0x5a; 0xf4;
   0x1f; 0xdd; 0xa8; 0x33; 0x88; 0x07; 0xc7; 0x31; 0xb1; 0x12; 0x10; 0x59; 0x27; 0x80; 0xec; 0x5f;
   0x60; 0x51; 0x7f; 0xa9; 0x19; 0xb5; 0x4a; 0x0d; 0x2d; 0xe5; 0x7a; 0x9f; 0x93; 0xc9; 0x9c; 0xef;
   0xa0; 0xe0; 0x3b; 0x4d; 0xae; 0x2a; 0xf5; 0xb0; 0xc8; 0xeb; 0xbb; 0x3c; 0x83; 0x53; 0x99; 0x61;
   0x17; 0x2b; 0x04; 0x7e; 0xba; 0x77; 0xd6; 0x26; 0xe1; 0x69; 0x14; 0x63; 0x55; 0x21; 0x0c; 0x7d].
Definition sbox (x : N) : N := nth (N.to_nat x) sbox_table 0.
Definition inv_sbox (x : N) : N := nth (N.to_nat x) inv_sbox_table 0.

(** multiplication by 2, 3, 9, 11, 13, 14 in GF(2^8) *)
Definition m2 (x : N) : N := N.lxor ((2 * x) mod 256) (if x <? 128 then 0 else 0x1b).
Definition m4 (x : N) : N := m2 (m2 x).
Definition m8 (x : N) : N := m2 (m4 x).
Definition m3 (x : N) : N := N.lxor (m2 x) x.
Definition m9 (x : N) : N := N.lxor (m8 x) x.
Definition m11 (x : N) : N := N.lxor (m8 x) (m3 x).
Definition m13 (x : N) : N := N.lxor (m8 x) (N.lxor (m4 x) x).
Definition m14 (x : N) : N := N.lxor (m8 x) (N.lxor (m4 x) (m2 x)).
Definition xor4 (a b c d : N) : N := N.lxor (N.lxor a b) (N.lxor c d).

(** the state: 16 bytes, column by column *)
Definition shift_rows (s : bytes) : bytes := map (fun i => nth ((5 * i) mod 16)%nat s 0) (seq 0 16).
Definition inv_shift_rows (s : bytes) : bytes := map (fun i => nth ((13 * i) mod 16)%nat s 0) (seq 0 16).
Definition mix_column (a b c d : N) : bytes :=
  [xor4 (m2 a) (m3 b) c d; xor4 a (m2 b) (m3 c) d; xor4 a b (m2 c) (m3 d); xor4 (m3 a) b c (m2 d)].
Definition inv_mix_column (a b c d : N) : bytes :=
  [xor4 (m14 a) (m11 b) (m13 c) (m9 d); xor4 (m9 a) (m14 b) (m11 c) (m13 d);
   xor4 (m13 a) (m9 b) (m14 c) (m11 d); xor4 (m11 a) (m13 b) (m9 c) (m14 d)].
Fixpoint columns (f : N -> N -> N -> N -> bytes) (s : bytes) : bytes :=
  match s with
  | a :: b :: c :: d :: s' => f a b c d ++ columns f s'
  | _ => []
  end.
Fixpoint xor_bytes (a b : bytes) : bytes :=
  match a, b with
  | x :: a', y :: b' => N.lxor x y :: xor_bytes a' b'
  | _, _ => []
  end.
(** key schedule: the round keys after [k], with the round constants [rcs] *)
Fixpoint expand (rcs : bytes) (k : bytes) : list bytes :=
  match rcs with
  | [] => []
  | rc :: rcs' =>
    let w i := firstn 4 (skipn (4 * i) k) in
    let t := match w 3%nat with [a; b; c; d] => [N.lxor (sbox b) rc; sbox c; sbox d; sbox a] | _ => [] end in
    let w0 := xor_bytes (w 0%nat) t in
    let w1 := xor_bytes (w 1%nat) w0 in
    let w2 := xor_bytes (w 2%nat) w1 in
    let w3 := xor_bytes (w 3%nat) w2 in
    let k' := w0 ++ w1 ++ w2 ++ w3 in
    k' :: expand rcs' k'
  end.
(** Anything but 16 bytes is made a key of 16 bytes. *)
Definition key_of (kek : bytes) : bytes := map (fun x => x mod 256) (firstn 16 (kek ++ repeat 0 16)).
Definition round_keys (kek : bytes) : list bytes :=
  expand [0x01; 0x02; 0x04; 0x08; 0x10; 0x20; 0x40; 0x80; 0x1b; 0x36] (key_of kek).
Fixpoint enc_rounds (ks : list bytes) (s : bytes) : bytes :=
  match ks with
  | [] => s
  | [k] => xor_bytes (shift_rows (map sbox s)) k
  | k :: ks' => enc_rounds ks' (xor_bytes (columns mix_column (shift_rows (map sbox s))) k)
  end.
Fixpoint dec_rounds (ks : list bytes) (s : bytes) : bytes :=
  match ks with
  | [] => s
  | [k] => map inv_sbox (inv_shift_rows (xor_bytes s k))
  | k :: ks' => map inv_sbox (inv_shift_rows (columns inv_mix_column (xor_bytes (dec_rounds ks' s) k)))
  end.
Definition aes_enc (kek s : bytes) : bytes := enc_rounds (round_keys kek) (xor_bytes s (key_of kek)).
Definition aes_dec (kek s : bytes) : bytes := xor_bytes (dec_rounds (round_keys kek) s) (key_of kek).

(** FIPS 197, appendix C.1 *)
Example aes_ex : aes_enc (be_bytes 16 0x000102030405060708090a0b0c0d0e0f) (be_bytes 16 0x00112233445566778899aabbccddeeff) =
  be_bytes 16 0x69c4e0d86a7b0430d8cdb78070b4c55a.
Proof. vm_compute. reflexivity. Qed.
Example aes_dec_ex : aes_dec (be_bytes 16 0x000102030405060708090a0b0c0d0e0f) (be_bytes 16 0x69c4e0d86a7b0430d8cdb78070b4c55a) =
  be_bytes 16 0x00112233445566778899aabbccddeeff.
Proof. vm_compute. reflexivity. Qed.

(** ** Key wrap for a block cipher *)
Fixpoint blocks8 (fuel : nat) (p : bytes) : list bytes :=
  match fuel with
  | O => []
  | S f => match p with [] => [] | _ => firstn 8 p :: blocks8 f (skipn 8 p) end
  end.
(** One step works on the first block and moves it to the end. *)
Definition wrap_step (enc : bytes -> bytes) (s : N * list bytes) (t : nat) : N * list bytes :=
  match snd s with
  | [] => s
  | r :: rs =>
    let b := enc (be_bytes 8 (fst s) ++ r) in
    (N.lxor (be_val (firstn 8 b)) (N.of_nat t mod 2 ^ 64), rs ++ [skipn 8 b])
  end.
Definition unwrap_step (dec : bytes -> bytes) (s : N * list bytes) (t : nat) : N * list bytes :=
  match snd s with
  | [] => s
  | rs =>
    let b := dec (be_bytes 8 (N.lxor (fst s) (N.of_nat t mod 2 ^ 64)) ++ last rs []) in
    (be_val (firstn 8 b), skipn 8 b :: removelast rs)
  end.
Definition wrap_iv : N := 0xa6a6a6a6a6a6a6a6.
Definition wrap_of (enc : bytes -> bytes -> bytes) (kek p : bytes) : bytes :=
  let rs := blocks8 (length p) p in
  let '(a, rs) := fold_left (wrap_step (enc kek)) (seq 1 (6 * length rs)) (wrap_iv, rs) in
  be_bytes 8 a ++ concat rs.
Definition unwrap_of (dec : bytes -> bytes -> bytes) (kek c : bytes) : option bytes :=
  if (length c mod 8 =? 0)%nat && (24 <=? length c)%nat then
    let rs := blocks8 (length c) (skipn 8 c) in
    let '(a, rs) := fold_left (unwrap_step (dec kek)) (rev (seq 1 (6 * length rs))) (be_val (firstn 8 c), rs) in
    if a =? wrap_iv then Some (concat rs) else None
  else None.
Definition aes_wrap := wrap_of aes_enc.
Definition aes_unwrap := unwrap_of aes_dec.

(** RFC 3394, section 4.1 *)
Example wrap_ex : aes_wrap (be_bytes 16 0x000102030405060708090a0b0c0d0e0f) (be_bytes 16 0x00112233445566778899aabbccddeeff) =
  be_bytes 24 0x1fa68b0a8112b447aef34bd8fb5a7b829d3e862371d2cfe5.
Proof. vm_compute. reflexivity. Qed.
Example unwrap_ex : aes_unwrap (be_bytes 16 0x000102030405060708090a0b0c0d0e0f) (be_bytes 24 0x1fa68b0a8112b447aef34bd8fb5a7b829d3e862371d2cfe5) =
  Some (be_bytes 16 0x00112233445566778899aabbccddeeff).
Proof. vm_compute. reflexivity. Qed.

