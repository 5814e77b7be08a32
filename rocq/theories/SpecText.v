(** Specification of text output. *)
From Verif Require Import Base Bits Layouts Common Tim Text.

(** the value of a digit *)
Definition digit_value (c : N) : option N :=
  if ((48 <=? c) && (c <=? 57))%N then Some (c - 48)%N else
  if ((97 <=? c) && (c <=? 102))%N then Some (c - 87)%N else None.
Fixpoint digits_value (base : N) (t : bytes) (acc : N) : option N :=
  match t with
  | [] => Some acc
  | c :: t' => match digit_value c with
               | Some d => if (d <? base)%N then digits_value base t' (base * acc + d) else None
               | None => None
               end
  end.
(** [t] is the number [n], written in the given base without leading zeros *)
Definition numeral (base : N) (t : bytes) (n : N) : Prop :=
  t <> [] /\ digits_value base t 0 = Some n /\ (hd 0%N t = 48%N -> t = [48]%N).

(** [t] is the list of these numbers, in brackets, separated by commas *)
Definition number_list (t : bytes) (l : list N) : Prop := exists ts, Forall2 (numeral 10) ts l /\
  t = str "[" ++ match ts with [] => [] | x :: ts' => x ++ concat (map (fun y => str ", " ++ y) ts') end ++ str "]".
(** [t] shows these items: their texts in this order, in brackets, separated by commas *)
Definition shows_items {A} (text : A -> bytes) (t : bytes) (l : list A) : Prop :=
  t = str "[" ++ match l with [] => [] | x :: l' => text x ++ concat (map (fun y => str ", " ++ text y) l') end ++ str "]".
(** what a bitmap has to say: group traffic (as 0) and association IDs *)
Definition announced (group : bool) (aids : option (list AssociationID)) : list N :=
  (if group then [0%N] else []) ++ match aids with Some l => map aid_aid l | None => [] end.
(** count, period and, if the element has a bitmap, what that announces *)
Definition tim_shown {cfg : Cfg} (t : TIM) (count period : N) (bitmap : option (list N)) : Prop :=
  te_count t = count /\ te_period t = period /\
  match te_bitmap t, bitmap with
  | Some b, Some l => exists aids, tb_aid_iter b = Ok aids /\ announced (tb_traffic b) aids = l
  | None, None => True
  | _, _ => False
  end.
(** the four ranges of VHT MCS indices *)
Definition vht_range_name (v : N) : bytes :=
  if (v =? 0)%N then str "ZeroToSeven" else if (v =? 1)%N then str "ZeroToEight" else if (v =? 2)%N then str "ZeroToNine" else str "NotSupported".

(** texts that end recognisably: whatever follows, they tell the values apart *)
Definition self_delimiting (P : bytes -> Prop) (text : bytes -> bytes) : Prop :=
  forall x y u v, P x -> P y -> text x ++ u = text y ++ v -> x = y.
(** six pairs of hexadecimal digits, separated by colons *)
Definition colon_hex (x : bytes) : bytes :=
  tl (concat (map (fun b => [58; digit (b / 16); digit (b mod 16)])%N x)).
(** between quotes, with backslashes before quotes and backslashes *)
Definition quote_escaped (x : bytes) : bytes :=
  [34%N] ++ concat (map (fun c => if (c =? 34)%N || (c =? 92)%N then [92; c]%N else [c]) x) ++ [34%N].
