(** The bytes a hasher gets: numbers of [w] bytes in native order, bytes as they are. *)
From Verif Require Import Base SpecBase Tim Hashes.

Definition fed_bytes {cfg : Cfg} (w : nat) (f : Fed) : bytes :=
  match f with Fed_u8 v => [v] | Fed_usize n | Fed_isize n => if native_le then le_bytes w (N.of_nat n) else be_bytes w (N.of_nat n) | Fed_bytes bs => bs end.
Definition hash_stream {cfg : Cfg} (w : nat) (fed : list Fed) : bytes := concat (map (fed_bytes w) fed).
(** two values of the same type of bitmap, whose numbers fit into [usize] *)
Definition same_type (a b : option TIMBitmap) : Prop :=
  match a, b with
  | Some (mkTB _ (Some x)), Some (mkTB _ (Some y)) =>
    match x, y with BSlice _, BSlice _ | BStatic _ _, BStatic _ _ | BConst _ _ _, BConst _ _ _ => True | _, _ => False end
  | _, _ => True
  end.
Definition fits_usize (w : nat) (n : nat) : Prop := (N.of_nat n < 256 ^ N.of_nat w)%N.
Definition numbers_fit (w : nat) (t : TIM) : Prop :=
  (1 <= w)%nat /\
  match te_bitmap t with
  | Some (mkTB _ (Some (BSlice bs))) => fits_usize w (length bs)
  | Some (mkTB _ (Some (BStatic array n))) => fits_usize w (length array) /\ fits_usize w n
  | Some (mkTB _ (Some (BConst array n1 n2))) => fits_usize w (length array) /\ fits_usize w n1 /\ fits_usize w n2
  | _ => True
  end.
