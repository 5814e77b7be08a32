(** What a caller may expect of any writer, whatever the value: what is written depends on the value alone. *)
From Verif Require Import Base SpecBase Enums Common Data Tim.

Section Spec.
Context {cfg : Cfg}.
(** Either the value has an encoding, which is written at the front of every buffer with enough room (leaving the rest alone; an error if there is
    no room), or writing it is an error for every buffer. *)
Definition Uniform (w : writer) : Prop := (exists bs, Writes w bs) \/ (forall buf, exists e, w buf = Err e).
(** The bitmap of a TIM element, if any, can be looked at. *)
Definition bitmap_readable (t : TIM) : Prop :=
  forall tb b, te_bitmap t = Some tb -> tb_bitmap tb = Some b -> bm_bytes b <> Panic.
(** The number of an unknown subtype fits into the four bits there are for it; the upper two bits of the [u8] get lost anyway. *)
Definition subtype_fits (h : DataHeader) : Prop := forall n, dh_subtype h = Dt_Unknown n -> (n mod 64 < 16)%N.
End Spec.
