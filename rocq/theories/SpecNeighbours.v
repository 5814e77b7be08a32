(** The elements a question is about, among the others. *)
From Verif Require Import Base SpecBase Common Elements SpecElements Mgmt.

(** [mine] are the elements of [es] with the identifier [id], in their order. *)
Inductive own (id : ElementID) : list RawElement -> list RawElement -> Prop :=
| own_nil : own id [] []
| own_same raw es mine : is_element id raw -> own id es mine -> own id (raw :: es) (raw :: mine)
| own_other raw es mine : ~ is_element id raw -> own id es mine -> own id (raw :: es) mine.

(** The elements of a received frame (or of a body) are its last part, and can be replaced: with other bytes in their place
    everything else that is read stays as it is. *)
Definition Replaceable {cfg : Cfg} {W R} (t : BodyType W R) (elements : R -> bytes) (with_elements : R -> bytes -> R) : Prop :=
  forall bs h x n, rd_mgmt t false bs = Ok ((h, x), n) -> exists front, bs = front ++ elements x /\
    forall more : bytes, end_ok more -> rd_mgmt t false (front ++ more) = Ok ((h, with_elements x more), length (front ++ more)).
