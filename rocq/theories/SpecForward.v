(** Vocabulary for iterators over received data and for writing received frames again. *)
From Verif Require Import Base SpecBase.

(** ** Calls of [next] *)
(** [k] calls of an iterator's [next], starting in the state [st]: what they return and the state
    the iterator is left in. *)
Fixpoint call_next {A} (next : option bytes -> Res serr (option A * option bytes)) (k : nat) (st : option bytes)
  : Res serr (list (option A) * option bytes) :=
  match k with
  | O => Ok ([], st)
  | S k' =>
      '(x, st) <- next st ;;
      '(xs, st) <- call_next next k' st ;;
      Ok (x :: xs, st)
  end.
(** the bytes an iterator has not read yet *)
Definition unread (st : option bytes) : bytes := match st with Some rest => rest | None => [] end.
(** A reader of items that take at least one byte. *)
Definition TakesBytes {A} (r : reader A) : Prop := forall bs x n, r bs = Ok (x, n) -> 1 <= n.
(** A reader of items that take exactly one byte. *)
Definition OneByteItems {A} (r : reader A) : Prop :=
  (exists e, r [] = Err e) /\ forall b rest, exists x, r (b :: rest) = Ok (x, 1).
(** A reader of items of a fixed size. *)
Definition ItemsOf {A} (size : nat) (r : reader A) : Prop :=
  (forall bs, length bs < size -> exists e, r bs = Err e) /\ forall bs, size <= length bs -> exists x, r bs = Ok (x, size).
(** What holds of the [k] calls of [next] on a new iterator over [bs] whose items are [all]: the
    items come in order, then only [None]; an iterator that is not exhausted stands before the
    bytes it has not read, and a new iterator over these bytes yields the remaining items. *)
Definition Traversal {A} (next : option bytes -> Res serr (option A * option bytes))
    (items : bytes -> Res serr (list A)) (bs : bytes) (all : list A) (k : nat) : Prop :=
  exists xs m st, call_next next k (Some bs) = Ok (map Some xs ++ repeat None m, st) /\ length xs + m = k /\
  match st with
  | Some rest => m = 0 /\ (exists used, bs = used ++ rest) /\ exists later, all = xs ++ later /\ items rest = Ok later
  | None => 0 < m /\ all = xs
  end.
