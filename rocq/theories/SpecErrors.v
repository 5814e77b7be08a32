(** What the kind of an error tells the caller (C75): [BadInput] means that neither more bytes nor a larger buffer can help; the other kinds
    mean that they can. *)
From Verif Require Import Base SpecBase SpecGeneric.

Section Spec.
Context {cfg : Cfg}.
(** nothing that starts with these bytes is accepted *)
Definition Final {A} (r : reader A) (bs : bytes) : Prop := forall more x, wf_bytes more -> r (bs ++ more) <> Ok x.
(** something that starts with these bytes is accepted *)
Definition Curable {A} (r : reader A) (bs : bytes) : Prop := exists more x, wf_bytes more /\ r (bs ++ more) = Ok x.
(** Errors tell which of the two is the case, for byte strings with [fits]; those without [fits] start with something that is never accepted. *)
Definition Telling {A} (r : reader A) (fits : bytes -> Prop) : Prop :=
  forall bs e, wf_bytes bs -> r bs = Err e ->
  (e = BadInput -> Final r bs) /\ (e <> BadInput -> fits bs -> Curable r bs) /\ (~ fits bs -> Final r bs).
(** the frame type, if the first byte is there already *)
Definition type_fits (ty : N) (bs : bytes) : Prop := bs = [] \/ frame_type_bits bs = ty.
(** bit 5 of the fourth byte, if it is there already *)
Definition ext_iv_fits (bs : bytes) : Prop := length bs < 4 \/ N.testbit (byte bs 3) 5 = true.
(** the body length announced in an EAPOL packet *)
Definition announced (bs : bytes) : nat := N.to_nat (be_val (firstn 2 (skipn 2 bs))).
(** [x] is at [off], as far as there are bytes there *)
Definition so_far (bs : bytes) (off : nat) (x : bytes) : Prop :=
  forall i, i < length x -> off + i < length bs -> nth (off + i) bs 0%N = nth i x 0%N.
(** What there is can be the front of a key frame with a MIC of [m] bytes: type 3, descriptor type 2, and a body length [len] and a length
    [dl] of the key data that agree with each other. With [strict], empty key data must not be at the end. *)
Definition key_frame_possible (strict : bool) (m : nat) (bs : bytes) : Prop :=
  exists len dl : N, (len < 65536)%N /\ (dl < 65536)%N /\
    so_far bs 1 [3]%N /\ so_far bs 2 (be_bytes 2 len) /\ so_far bs 4 [2]%N /\ so_far bs (81 + m) (be_bytes 2 dl) /\
    83 + m + N.to_nat dl <= 4 + N.to_nat len /\
    (strict = true -> dl <> 0%N \/ 83 + m + N.to_nat dl < 4 + N.to_nat len).

(** no buffer of any size is accepted for writing *)
Definition Unwritable (w : writer) : Prop := forall buf r, w buf <> Ok r.
End Spec.
