(** Vocabulary for specifications: what it means that a writer writes given bytes and that a
    reader reads a value from given bytes. *)
From Verif Require Import Base.

Section Spec.
Context {cfg : Cfg}.
(** One byte of room behind the data, needed only by scroll versions which refuse accesses of
    size zero at the end of a buffer. *)
Definition slack : nat := if strict_end then 1 else 0.
(** a possibly empty read/write at the end of the buffer is possible *)
Definition end_ok (bs : bytes) : Prop := strict_end = false \/ bs <> [].

(** The writer produces exactly [bs]: on every buffer it either writes [bs] at the front
    leaving the rest as it was, or fails without panicking, and it succeeds whenever the
    buffer has room ([slack] more byte if scroll is strict about the end). *)
Record Writes (w : writer) (bs : bytes) : Prop := {
  writes_any : forall buf,
    (length bs <= length buf /\ w buf = Ok (bs ++ skipn (length bs) buf, length bs))
    \/ exists e, w buf = Err e;
  writes_ok : forall buf, length bs + slack <= length buf ->
    w buf = Ok (bs ++ skipn (length bs) buf, length bs)
}.
(** same, without the extra byte *)
Definition WritesT (w : writer) (bs : bytes) : Prop :=
  Writes w bs /\ forall buf, length bs <= length buf ->
    w buf = Ok (bs ++ skipn (length bs) buf, length bs).

(** The reader recognises [bs] at the front of any input. *)
Definition Reads {A} (r : reader A) (bs : bytes) (x : A) : Prop :=
  forall rest, r (bs ++ rest) = Ok (x, length bs).
(** the reader accepts [bs] as a complete input *)
Definition ReadsAll {A} (r : reader A) (bs : bytes) (x : A) : Prop :=
  r bs = Ok (x, length bs).

(** readers that never panic *)
Definition NoPanic {A} (r : reader A) : Prop := forall from, r from <> Panic.
(** the reported size lies inside the input *)
Definition InBounds {A} (r : reader A) : Prop := forall from x n, r from = Ok (x, n) -> n <= length from.
End Spec.
