(** The Michael function as IEEE 802.11-2020, 12.5.2.3.3 defines it, over octet strings. *)
From Verif Require Import Base.
Local Open Scope N_scope.

(** rotations of 32 bit words, written with multiplication and division *)
Definition rol32 (x k : N) : N := (x * 2 ^ k) mod 2 ^ 32 + x / 2 ^ (32 - k).
Definition ror32 (x k : N) : N := rol32 x (32 - k).
Definition add32 (x y : N) : N := (x + y) mod 2 ^ 32.
(** XSWAP exchanges the two octets of each half of a word *)
Definition xswap32 (x : N) : N :=
  match le_bytes 4 x with
  | [a; b; c; d] => le_val [b; a; d; c]
  | _ => 0
  end.
(** the block function b(L, R) *)
Definition b_step (rot : N -> N) (s : N * N) : N * N :=
  let '(l, r) := s in let r' := N.lxor r (rot l) in (add32 l r', r').
Definition b_block (s : N * N) : N * N :=
  b_step (fun l => ror32 l 2) (b_step (fun l => rol32 l 3) (b_step xswap32 (b_step (fun l => rol32 l 17) s))).
(** the message, one octet 0x5a, and between four and seven zero octets up to a multiple of four *)
Definition pad_zeros (n : nat) : nat := 7 - (n mod 4).
Definition padded (m : bytes) : bytes := m ++ 0x5a :: repeat 0 (pad_zeros (length m)).
(** little-endian words of an octet string *)
Fixpoint words (m : bytes) : list N :=
  match m with
  | a :: b :: c :: d :: m' => le_val [a; b; c; d] :: words m'
  | _ => []
  end.
(** the MIC of the message [m] under the key octets [k0..k7] *)
Definition michael_words (s : N * N) (ws : list N) : N * N :=
  fold_left (fun s w => b_block (N.lxor (fst s) w, snd s)) ws s.
Definition michael_mic (key : bytes) (m : bytes) : bytes :=
  let '(l, r) := michael_words (le_val (firstn 4 key), le_val (skipn 4 key)) (words (padded m)) in
  le_bytes 4 l ++ le_bytes 4 r.
(** a key with the octets of each half in reverse order *)
Definition halves_reversed (key : bytes) : bytes := rev (firstn 4 key) ++ rev (skipn 4 key).
