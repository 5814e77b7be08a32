(** UTF-8 as the encoding of Unicode scalar values (RFC 3629, section 3), independent of the
    byte-wise validity check. *)
From Verif Require Import Base.
Local Open Scope N_scope.

Definition scalar (c : N) : Prop := c < 0xd800 \/ 0xe000 <= c < 0x110000.
Definition utf8_encode (c : N) : bytes :=
  if c <? 0x80 then [c]
  else if c <? 0x800 then [0xc0 + c / 64; 0x80 + c mod 64]
  else if c <? 0x10000 then [0xe0 + c / 4096; 0x80 + c / 64 mod 64; 0x80 + c mod 64]
  else [0xf0 + c / 262144; 0x80 + c / 4096 mod 64; 0x80 + c / 64 mod 64; 0x80 + c mod 64].
(** the byte string is a [str] *)
Definition is_utf8 (bs : bytes) : Prop :=
  exists cs, Forall scalar cs /\ bs = concat (map utf8_encode cs).
