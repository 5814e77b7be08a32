(** Specification: the bits of a frame in transmission order and the frame check sequence of IEEE 802.11 (9.2.4.8), as remainder of a
    division of polynomials over GF(2). *)
From Verif Require Import Base.

(** bit [i] of a byte string, least significant bit of the first byte first *)
Definition frame_bit (bs : bytes) (i : nat) : bool :=
  N.testbit (nth (i / 8) bs 0%N) (N.of_nat (i mod 8)).

(** A polynomial is the number whose bit [i] is the coefficient of [x^i]; the sum is [N.lxor], times [x^n] is [2^n *]. *)
Fixpoint mul_pos (a : positive) (b : N) : N :=
  match a with
  | xH => b
  | xO a' => 2 * mul_pos a' b
  | xI a' => N.lxor b (2 * mul_pos a' b)
  end.
Definition poly_mul (a b : N) : N := match a with N0 => 0 | Npos p => mul_pos p b end.

(** the generator polynomial *)
Definition generator : N := fold_right N.lxor 0%N (map (N.pow 2) [32; 26; 23; 22; 16; 12; 11; 10; 8; 7; 5; 4; 2; 1; 0]%N).
(** [r] is the remainder of the division of [a] by the generator polynomial *)
Definition remainder (a r : N) : Prop := (r < 2 ^ 32)%N /\ exists q, a = N.lxor (poly_mul q generator) r.

(** the polynomial of a message: its first bit is the coefficient of the highest power *)
Definition message (bs : bytes) : N :=
  fold_left (fun m i => 2 * m + N.b2n (frame_bit bs i))%N (seq 0 (8 * length bs)) 0%N.
(** [fcs] is the field for the message [bs] of [k] bits: the complement of the sum of the remainders of
    [x^k (x^31 + ... + 1)] and of [x^32] times the message; the coefficient of the highest power is the first bit. *)
Definition is_fcs (bs fcs : bytes) : Prop :=
  wf_bytes fcs /\ length fcs = 4 /\
  exists r1 r2, remainder (2 ^ N.of_nat (8 * length bs) * (2 ^ 32 - 1)) r1 /\ remainder (2 ^ 32 * message bs) r2 /\
    forall i, i < 32 -> frame_bit fcs i = negb (xorb (N.testbit r1 (N.of_nat (31 - i))) (N.testbit r2 (N.of_nat (31 - i)))).
