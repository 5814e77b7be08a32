(** Vocabulary for bounds on what received bytes can yield. *)
From Verif Require Import Base Rsn.

(** A reader of items that take at least [size] bytes each. *)
Definition TakesAtLeast {A} (size : nat) (r : reader A) : Prop := forall bs x n, r bs = Ok (x, n) -> size <= n.
(** the number of items of an optional list; an absent list has none *)
Definition number_of {A} (r : reader A) (o : option (RList A)) : nat :=
  match o with Some l => rl_count r l | None => 0 end.
