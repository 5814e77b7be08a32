(** SHA-1 (FIPS 180-4) and HMAC (RFC 2104), to have concrete instances of the functions the key management
    facts quantify over. Not part of /repo (crates sha1 and hmac). *)
From Verif Require Import Base.
Local Open Scope N_scope.

Definition add32 (a b : N) : N := (a + b) mod 2 ^ 32.
Definition rotl32 (n x : N) : N := N.lor ((N.shiftl x n) mod 2 ^ 32) (N.shiftr x (32 - n)).
Definition not32 (x : N) : N := N.lxor x 0xffffffff.
(** big-endian words *)
Fixpoint words (fuel : nat) (bs : bytes) : list N :=
  match fuel with
  | O => []
  | S f => match bs with [] => [] | _ => be_val (firstn 4 bs) :: words f (skipn 4 bs) end
  end.
(** The message schedule, newest word first: [w] are the last 16 words *)
Fixpoint schedule (n : nat) (w : list N) : list N :=
  match n with
  | O => []
  | S n' =>
    let x := rotl32 1 (N.lxor (N.lxor (nth 2 w 0) (nth 7 w 0)) (N.lxor (nth 13 w 0) (nth 15 w 0))) in
    x :: schedule n' (x :: firstn 15 w)
  end.
Definition f_k (t : nat) (b c d : N) : N * N :=
  if (t <? 20)%nat then (N.lxor (N.land b c) (N.land (not32 b) d), 0x5a827999)
  else if (t <? 40)%nat then (N.lxor (N.lxor b c) d, 0x6ed9eba1)
  else if (t <? 60)%nat then (N.lxor (N.lxor (N.land b c) (N.land b d)) (N.land c d), 0x8f1bbcdc)
  else (N.lxor (N.lxor b c) d, 0xca62c1d6).
Definition state : Type := N * N * N * N * N.
Fixpoint rounds (t : nat) (ws : list N) (s : state) : state :=
  match ws with
  | [] => s
  | w :: ws' =>
    let '(a, b, c, d, e) := s in
    let '(f, k) := f_k t b c d in
    rounds (S t) ws' (add32 (add32 (add32 (add32 (rotl32 5 a) f) e) k) w, a, rotl32 30 b, c, d)
  end.
Definition compress (s : state) (block : list N) : state :=
  let '(a, b, c, d, e) := s in
  let '(a', b', c', d', e') := rounds 0 (block ++ schedule 64 (rev block)) s in
  (add32 a a', add32 b b', add32 c c', add32 d d', add32 e e').
Fixpoint blocks (fuel : nat) (s : state) (ws : list N) : state :=
  match fuel with
  | O => s
  | S f => match ws with [] => s | _ => blocks f (compress s (firstn 16 ws)) (skipn 16 ws) end
  end.
Definition sha1_padded (m : bytes) : bytes :=
  let zeros := ((119 - length m mod 64) mod 64)%nat in
  m ++ [0x80] ++ repeat 0 zeros ++ be_bytes 8 (8 * N.of_nat (length m)).
Definition sha1 (m : bytes) : bytes :=
  let ws := words (length m + 128) (sha1_padded m) in
  let '(a, b, c, d, e) := blocks (length ws) (0x67452301, 0xefcdab89, 0x98badcfe, 0x10325476, 0xc3d2e1f0) ws in
  be_bytes 4 a ++ be_bytes 4 b ++ be_bytes 4 c ++ be_bytes 4 d ++ be_bytes 4 e.
Definition hmac_with (hash : bytes -> bytes) (key m : bytes) : bytes :=
  let k := if (64 <? length key)%nat then hash key else key in
  let k := k ++ repeat 0 (64 - length k) in
  hash (map (N.lxor 0x5c) k ++ hash (map (N.lxor 0x36) k ++ m)).
Definition hmac_sha1_of : bytes -> bytes -> bytes := hmac_with sha1.

(** FIPS 180 and RFC 2202 test vectors *)
Example sha1_abc : sha1 [0x61; 0x62; 0x63] = be_bytes 20 0xa9993e364706816aba3e25717850c26c9cd0d89d.
Proof. vm_compute. reflexivity. Qed.
Example sha1_empty : sha1 [] = be_bytes 20 0xda39a3ee5e6b4b0d3255bfef95601890afd80709.
Proof. vm_compute. reflexivity. Qed.
Example hmac_1 : hmac_sha1_of (repeat 0x0b 20) [0x48; 0x69; 0x20; 0x54; 0x68; 0x65; 0x72; 0x65] = be_bytes 20 0xb617318655057264e28bc0b6fb378c8ef146be00.
Proof. vm_compute. reflexivity. Qed.
