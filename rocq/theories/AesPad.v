(** AES key wrap with padding (RFC 5649), for any block cipher, and PBKDF2 (RFC 8018, 5.2), for any HMAC. Not part of
    /repo (crates aes-kw and pbkdf2). *)
From Verif Require Import Base SpecBase Sha1 Aes.
Local Open Scope N_scope.

(** ** RFC 5649 *)
(** number of blocks of eight bytes *)
Definition blocks_for (n : nat) : nat := ((n + 7) / 8)%nat.
(** alternative initial value: 0xa65959a6 and the length *)
Definition pad_iv (n : nat) : N := 0xa65959a6 * 2 ^ 32 + N.of_nat n.
(** zeros up to a multiple of eight *)
Definition pad8 (p : bytes) : bytes := p ++ repeat 0 (8 * blocks_for (length p) - length p).
(** section 4.1; one block is encrypted directly *)
Definition wrap_pad_of (enc : bytes -> bytes -> bytes) (kek p : bytes) : bytes :=
  let iv := pad_iv (length p) in
  if (blocks_for (length p) =? 1)%nat then enc kek (be_bytes 8 iv ++ pad8 p)
  else
    let rs := blocks8 (length (pad8 p)) (pad8 p) in
    let '(a, rs) := fold_left (wrap_step (enc kek)) (seq 1 (6 * length rs)) (iv, rs) in
    be_bytes 8 a ++ concat rs.
(** section 4.2 *)
Definition unwrap_pad_of (dec : bytes -> bytes -> bytes) (kek c : bytes) : option bytes :=
  if (length c mod 8 =? 0)%nat && (16 <=? length c)%nat then
    let '(a, padded) :=
      if (length c =? 16)%nat then let b := dec kek c in (be_val (firstn 8 b), skipn 8 b)
      else
        let rs := blocks8 (length c) (skipn 8 c) in
        let '(a, rs) := fold_left (unwrap_step (dec kek)) (rev (seq 1 (6 * length rs))) (be_val (firstn 8 c), rs) in
        (a, concat rs) in
    let n := N.to_nat (a mod 2 ^ 32) in
    if (a / 2 ^ 32 =? 0xa65959a6) && (blocks_for n =? length padded / 8)%nat && forallb (N.eqb 0) (skipn n padded)
    then Some (firstn n padded) else None
  else None.
Definition aes_wrap_pad := wrap_pad_of aes_enc.
Definition aes_unwrap_pad := unwrap_pad_of aes_dec.

(** ** PBKDF2 *)
(** [u]: the last of the U's, [t]: their sum so far, [n] more follow *)
Fixpoint pbkdf2_sum (prf : bytes -> bytes) (n : nat) (u t : bytes) : bytes :=
  match n with O => t | S n' => let u := prf u in pbkdf2_sum prf n' u (xor_bytes t u) end.
Definition pbkdf2_block (prf : bytes -> bytes) (salt : bytes) (iterations i : nat) : bytes :=
  let u := prf (salt ++ be_bytes 4 (N.of_nat i)) in pbkdf2_sum prf (iterations - 1) u u.
Definition pbkdf2_of (hmac : bytes -> bytes -> bytes) (password salt : bytes) (iterations length : nat) : bytes :=
  firstn length (concat (map (pbkdf2_block (hmac password) salt iterations) (seq 1 ((length + 19) / 20)))).

(** RFC 5649, section 6, has vectors for 192-bit keys only; those of the crate aes-kw for AES-128 are not at hand. *)
(** RFC 6070 *)
Example pbkdf2_1 : pbkdf2_of hmac_sha1_of [0x70; 0x61; 0x73; 0x73; 0x77; 0x6f; 0x72; 0x64] [0x73; 0x61; 0x6c; 0x74] 1 20 =
  be_bytes 20 0x0c60c80f961f0e71f3a9b524af6012062fe037a6.
Proof. vm_compute. reflexivity. Qed.
Example pbkdf2_2 : pbkdf2_of hmac_sha1_of [0x70; 0x61; 0x73; 0x73; 0x77; 0x6f; 0x72; 0x64] [0x73; 0x61; 0x6c; 0x74] 2 20 =
  be_bytes 20 0xea6c014dc72d6f8ccd1ed92ace1d41f0d8de8957.
Proof. vm_compute. reflexivity. Qed.
(** two blocks *)
Example pbkdf2_3 : pbkdf2_of hmac_sha1_of [0x70; 0x61; 0x73; 0x73; 0x77; 0x6f; 0x72; 0x64] [0x73; 0x61; 0x6c; 0x74] 3 25 =
  be_bytes 25 0x6b4e26125c25cf21ae35ead955f479ea2e71f6ff9e400029f0.
Proof. vm_compute. reflexivity. Qed.
