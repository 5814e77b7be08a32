(** The [Hash] implementations of the TIM types, which have a hand-written [PartialEq] and [Eq]:
    /repo/src/elements/tim.rs. All of them are derived; a derived implementation passes the fields to the
    hasher in order. The model is the list of values passed. (The rates elements have a hand-written
    [PartialEq], too, but the iterator of received ones does not implement [Hash].) *)
From Verif Require Import Base Tim.

(** The methods of [core::hash::Hasher] that are called. *)
Inductive Fed := Fed_u8 (v : N) | Fed_usize (n : nat) | Fed_isize (variant : nat) | Fed_bytes (bs : bytes).
(** [impl Hash for [u8]], which arrays use as well: the length and the bytes *)
Definition feed_slice (bs : bytes) : list Fed := [Fed_usize (length bs); Fed_bytes bs].
(** derived for [Option]: the number of the variant and the value *)
Definition feed_option {A} (f : A -> list Fed) (o : option A) : list Fed :=
  match o with None => [Fed_isize 0] | Some x => Fed_isize 1 :: f x end.
(** tim.rs:93, 132 *)
Definition feed_bitmap (b : Bitmap) : list Fed :=
  match b with
  | BSlice bs => feed_slice bs
  | BStatic array n => feed_slice array ++ [Fed_usize n]
  | BConst array n1 n2 => feed_slice array ++ [Fed_usize n1; Fed_usize n2]
  end.
(** tim.rs:62, 169 *)
Definition feed_tim_bitmap (t : TIMBitmap) : list Fed := Fed_u8 (tb_control t) :: feed_option feed_bitmap (tb_bitmap t).
(** tim.rs:490 *)
Definition feed_tim (t : TIM) : list Fed :=
  [Fed_u8 (te_count t); Fed_u8 (te_period t)] ++ feed_option feed_tim_bitmap (te_bitmap t).
