(** The law that [Hash] and [Eq] have to obey: equal values of a type pass the same data to the
    hasher. *)
From Verif Require Import Base SpecBase Common Tim Hashes.

Definition HashLaw {A} (eq : A -> A -> Res serr bool) (feed : A -> list Fed) (values : A -> Prop) : Prop :=
  forall a b, values a -> values b -> eq a b = Ok true -> feed a = feed b.
(** Not required, but what makes hashing worth while: different values pass different data. *)
Definition HashDistinct {A} (feed : A -> list Fed) (values : A -> Prop) : Prop :=
  forall a b, values a -> values b -> feed a = feed b -> a = b.

(** The values of [TIMBitmap<&[u8]>], the ones of [TIMBitmap<StaticBitmap>] made by [new_static], and the
    ones of [TIMBitmap<ConstBitmap>] made by [tim_bitmap!] *)
Definition of_slice (t : TIMBitmap) : Prop :=
  match tb_bitmap t with None | Some (BSlice _) => True | _ => False end.
Definition by_new_static {cfg : Cfg} (t : TIMBitmap) : Prop := exists group aids, tb_new_static group aids = Ok t.
Definition by_macro {cfg : Cfg} (t : TIMBitmap) : Prop :=
  t = tim_bitmap_zero \/ (exists aids, tim_bitmap_list aids = Ok t) \/ (exists min max, tim_bitmap_range min max = Ok t).
(** TIM elements whose bitmap, if any, is such a value *)
Definition with_bitmap (values : TIMBitmap -> Prop) (t : TIM) : Prop :=
  match te_bitmap t with Some b => values b | None => True end.
