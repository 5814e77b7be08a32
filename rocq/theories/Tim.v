(** The traffic indication map: /repo/src/elements/tim.rs. *)
From Verif Require Import Base Bits Layouts Common Elements ElementTypes.

Section Tim.
Context {cfg : Cfg}.

(** ** [TIMBitmapControl], tim.rs:61-91, as its byte *)
Definition TIMBitmapControl := N.
(** tim.rs:78-80; seven bits times two do not overflow a [u8] *)
Definition tbc_n1 (c : TIMBitmapControl) : N := (lget TIMBitmapControl_layout "bitmap_offset" c * 2)%N.
(** tim.rs:83-90 *)
Definition tbc_with_n1 (n1 : N) (c : TIMBitmapControl) : Res serr TIMBitmapControl :=
  lwith TIMBitmapControl_layout "bitmap_offset" (n1 / 2)%N c.
Definition tbc_traffic (c : TIMBitmapControl) : bool := lgetb TIMBitmapControl_layout "traffic_indicator" c.

(** ** The types used for the type parameter [Bitmap]: [&[u8]]; [StaticBitmap(array, n)],
    tim.rs:97; [ConstBitmap(array, n1, n2)], tim.rs:134. The arrays have 251 bytes. *)
Inductive Bitmap :=
| BSlice (bs : bytes)
| BStatic (array : bytes) (n : nat)
| BConst (array : bytes) (n1 n2 : nat).
(** [deref]/[as_bytes], tim.rs:98-114, 135-145 *)
Definition bm_bytes (b : Bitmap) : Res serr bytes :=
  match b with
  | BSlice bs => Ok bs
  | BStatic array n => slice_to array (S n)
  | BConst array n1 n2 => slice array n1 (S n2)
  end.
(** [measure_with], tim.rs:120-124, 156-160; a slice measures its length *)
Definition bm_measure (b : Bitmap) : Res serr nat :=
  match b with
  | BSlice bs => Ok (length bs)
  | BStatic _ n => Ok n
  | BConst _ _ _ => rmap (@length N) (bm_bytes b)
  end.
(** [try_into_ctx], tim.rs:125-131, 161-167 *)
Definition bm_write (b : Bitmap) : writer := fun buf =>
  match b with
  | BSlice bs => wr_bytes bs buf
  | _ => bs <- bm_bytes b ;; pwrite (wr_bytes bs) buf 0
  end.

(** ** [TIMBitmap], tim.rs:174-177 *)
Record TIMBitmap := mkTB { tb_control : TIMBitmapControl; tb_bitmap : option Bitmap }.
(** tim.rs:203-219 *)
Definition tb_new_raw (control : TIMBitmapControl) (bitmap : option Bitmap) : Res serr (option TIMBitmap) :=
  match bitmap with
  | Some b => bs <- bm_bytes b ;;
      if 251 <? length bs + N.to_nat (tbc_n1 control) then Ok None else Ok (Some (mkTB control bitmap))
  | None => Ok (Some (mkTB control bitmap))
  end.
(** tim.rs:181-183, 221-223 *)
Definition tb_traffic (t : TIMBitmap) : bool := tbc_traffic (tb_control t).
Definition tb_is_empty (t : TIMBitmap) : bool :=
  negb (tb_traffic t) && match tb_bitmap t with None => true | Some _ => false end.

(** [set_bit!(array[i], bit!(b))] *)
Definition set_bit_at (array : bytes) (i : nat) (b : nat) : Res serr bytes :=
  if i <? length array
  then Ok (firstn i array ++ N.lor (nth i array 0%N) (2 ^ N.of_nat b) :: skipn (S i) array)
  else Panic.
(** Loop body shared by [new_static] (tim.rs:245-255) and [tim_bitmap!] (tim.rs:437-446): state
    is the array, the lowest and the highest byte. *)
Definition tim_add (aid : nat) (st : bytes * nat * nat) : Res serr (bytes * nat * nat) :=
  let '(array, n1, n2) := st in
  let byte_index := aid / 8 in
  let bit_index := aid mod 8 in
  array <- set_bit_at array byte_index bit_index ;;
  let n1 := if (byte_index <? n1) && negb (aid =? 0) then byte_index else n1 in
  let n2 := if n2 <? byte_index then byte_index else n2 in
  Ok (array, n1, n2).
Fixpoint tim_add_all (aids : list nat) (st : bytes * nat * nat) : Res serr (bytes * nat * nat) :=
  match aids with
  | [] => Ok st
  | aid :: aids' => st <- tim_add aid st ;; tim_add_all aids' st
  end.
(** tim.rs:232-267 *)
Definition tb_new_static (multicast : bool) (association_ids : list AssociationID) : Res serr TIMBitmap :=
  '(array, n1, n2) <- tim_add_all (map (fun a => N.to_nat (aid_aid a)) (firstn 2007 association_ids))
                        (repeat 0%N 251, 251, 0) ;;
  array <- (if (n1 =? 0) && multicast then set_bit_at array 0 1 else Ok array) ;;
  control <- tbc_with_n1 (N.of_nat n1 mod 256) (lsetb TIMBitmapControl_layout "traffic_indicator" multicast 0) ;;
  Ok (mkTB control (Some (BStatic array n2))).
(** tim.rs:274-284. The index [bytes[aid / 8]] is in range for every [aid] of the loop. *)
Definition tb_aid_iter (t : TIMBitmap) : Res serr (option (list AssociationID)) :=
  match tb_bitmap t with
  | None => Ok None
  | Some b =>
      bs <- bm_bytes b ;;
      l <- filter_map_res (fun aid =>
             if N.testbit (nth (aid / 8) bs 0%N) (N.of_nat (aid mod 8)) then
               let sum := (tbc_n1 (tb_control t) * 8 + N.of_nat aid mod 65536)%N in
               if overflow_checks && (65535 <? sum)%N then Panic
               else Ok (aid_new_checked (sum mod 65536))
             else Ok None) (seq 1 (length bs * 8 - 1)) ;;
      Ok (Some l)
  end.
(** tim.rs:325-342 *)
Definition rd_tim_bitmap : reader TIMBitmap := fun from =>
  '(control, off) <- gread rd_u8 from 0 ;;
  rest <- slice_from from off ;;
  Ok (mkTB control (Some (BSlice rest)), length from).
(** tim.rs:343-353 *)
Definition tb_measure (t : TIMBitmap) : Res serr nat :=
  match tb_bitmap t with
  | Some b => n <- bm_measure b ;; Ok (1 + n)
  | None => Ok (if tb_traffic t then 1 else 0)
  end.
(** tim.rs:354-369 *)
Definition tb_write (t : TIMBitmap) : writer :=
  wseq (match tb_bitmap t with
        | Some b => [wr_u8 (tb_control t); bm_write b]
        | None => if tb_traffic t then [wr_u8 (tb_control t); wr_u8 0] else []
        end).

(** ** [tim_bitmap!], tim.rs:409-488. The code runs during compilation; a panic is a
    compile-time error. *)
(** tim.rs:410-416, [tim_bitmap!(0)] *)
Definition tim_bitmap_zero : TIMBitmap := mkTB (lsetb TIMBitmapControl_layout "traffic_indicator" true 0) None.
(** tim.rs:435: the assertion in front of each step *)
Fixpoint tim_add_checked (aids : list nat) (st : bytes * nat * nat) : Res serr (bytes * nat * nat) :=
  match aids with
  | [] => Ok st
  | aid :: aids' => if 2007 <? aid then Panic else st <- tim_add aid st ;; tim_add_checked aids' st
  end.
(** tim.rs:417-462, [tim_bitmap![aid, ...]] *)
Definition tim_bitmap_list (aids : list nat) : Res serr TIMBitmap :=
  let traffic := existsb (fun aid => aid =? 0) aids in
  '(array, n1, n2) <- tim_add_checked aids (repeat 0%N 251, 251, 0) ;;
  let n1 := N.to_nat (N.land (N.of_nat n1) 0xfe) in
  control <- tbc_with_n1 (N.of_nat n1 mod 256) (lsetb TIMBitmapControl_layout "traffic_indicator" traffic 0) ;;
  Ok (mkTB control (Some (BConst array n1 n2))).
(** tim.rs:472-475, the loop over [min ..= max] *)
Fixpoint set_bits (array : bytes) (aids : list nat) : Res serr bytes :=
  match aids with
  | [] => Ok array
  | i :: aids' => array <- set_bit_at array (i / 8) (i mod 8) ;; set_bits array aids'
  end.
(** tim.rs:463-487, [tim_bitmap!(min => max)] *)
Definition tim_bitmap_range (min max : nat) : Res serr TIMBitmap :=
  if 2007 <? max then Panic else
  array <- set_bits (repeat 0%N 251) (seq min (S max - min)) ;;
  let n1 := N.to_nat (N.land (N.of_nat (min / 8)) 0xfe) in
  let n2 := max / 8 in
  control <- tbc_with_n1 (N.of_nat n1 mod 256) (lsetb TIMBitmapControl_layout "traffic_indicator" (min =? 0) 0) ;;
  Ok (mkTB control (Some (BConst array n1 n2))).

(** ** [TIMElement], tim.rs:494-614 *)
Record TIM := mkTIM { te_count : N; te_period : N; te_bitmap : option TIMBitmap }.
(** tim.rs:509-518 *)
Definition check_dtim_parameters (period count : N) : Res serr unit :=
  if (period <? count)%N then Err BadInput else Ok tt.
(** tim.rs:560-580 *)
Definition rd_tim : reader TIM := fun from =>
  '(count, off) <- gread rd_u8 from 0 ;;
  '(period, off) <- gread rd_u8 from off ;;
  '_ <- check_dtim_parameters period count ;;
  '(bitmap, off) <- gread_ok rd_tim_bitmap from off ;;
  Ok (mkTIM count period bitmap, off).
(** tim.rs:581-589 *)
Definition tim_measure (t : TIM) : Res serr nat :=
  match te_bitmap t with
  | Some b => n <- tb_measure b ;; Ok (2 + n)
  | None => Ok 2
  end.
(** tim.rs:590-607 *)
Definition wr_tim (t : TIM) : writer := fun buf =>
  '_ <- check_dtim_parameters (te_period t) (te_count t) ;;
  wseq ([wr_u8 (te_count t); wr_u8 (te_period t)]
        ++ match te_bitmap t with
           | Some b => if tb_is_empty b then [] else [tb_write b]
           | None => []
           end) buf.
(** tim.rs:608-614. Where measuring would panic (a [ConstBitmap] with crossed bounds) the announced
    length is taken as 0 here; writing such an element panics as well. *)
Definition TIMElement : ElementType TIM TIM :=
  mkET (Id 5) (fun t => match tim_measure t with Ok n => n | _ => 0 end) wr_tim rd_tim.

(** The [PartialEq] implementations, tim.rs:316-323, 546-558, on bitmaps that can be looked at *)
Definition bytes_eqb (a b : bytes) : bool := if list_eq_dec N.eq_dec a b then true else false.
Definition tb_eq (a b : TIMBitmap) : Res serr bool :=
  if negb (tb_control a =? tb_control b)%N then Ok false else
  match tb_bitmap a, tb_bitmap b with
  | Some x, Some y => u <- bm_bytes x ;; v <- bm_bytes y ;; Ok (bytes_eqb u v)
  | Some x, None => '_ <- bm_bytes x ;; Ok false
  | None, Some y => '_ <- bm_bytes y ;; Ok false
  | None, None => Ok true
  end.
Definition te_eq (a b : TIM) : Res serr bool :=
  if negb ((te_count a =? te_count b) && (te_period a =? te_period b))%N then Ok false else
  match te_bitmap a, te_bitmap b with
  | Some x, Some y => tb_eq x y
  | None, None => Ok true
  | _, _ => Ok false
  end.
End Tim.
