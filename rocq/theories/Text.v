(** Text output: the hand-written [Display], [Debug] and [defmt::Format] implementations (see also TextIter.v). A text is the list of its (ASCII) characters'
    codes. Only the plain format ([{}], [{:?}]) is modelled, not alternate forms or widths given by the caller; derived implementations
    are only modelled where one of these uses them. *)
From Coq Require String Ascii.
From Verif Require Import Base Bits Layouts Common Enums ElementTypes Tim.
Definition str (s : String.string) : bytes := map Ascii.N_of_ascii (String.list_ascii_of_string s).

(** ** What core::fmt writes *)
(** digits of a number, most significant first: [{}] and [{:x}] of integers *)
Definition digit (d : N) : N := if (d <? 10)%N then (48 + d)%N else (87 + d)%N.
Fixpoint fmt_digits (fuel : nat) (base n : N) : bytes :=
  match fuel with
  | O => []
  | S f => if (n <? base)%N then [digit n] else fmt_digits f base (n / base) ++ [digit (n mod base)]
  end.
Definition fmt_int (base n : N) : bytes := fmt_digits (S (N.size_nat n)) base n.
Definition fmt_dec (n : N) : bytes := fmt_int 10 n.
(** [{:16x}]: at least 16 characters, filled up with spaces in front *)
Definition fmt_pad (width : nat) (t : bytes) : bytes := repeat 32%N (width - length t) ++ t.
(** items with a separator between them *)
Fixpoint join (sep : bytes) (l : list bytes) : bytes :=
  match l with
  | [] => []
  | [x] => x
  | x :: l' => x ++ sep ++ join sep l'
  end.
(** [debug_list] *)
Definition fmt_list (l : list bytes) : bytes := str "[" ++ join (str ", ") l ++ str "]".
(** [debug_struct] with at least one field *)
Definition fmt_struct (name : bytes) (fields : list (bytes * bytes)) : bytes :=
  name ++ str " { " ++ join (str ", ") (map (fun f => fst f ++ str ": " ++ snd f) fields) ++ str " }".

(** ** Implementations *)
(** /repo/src/common/aid.rs:49-53 [Debug], 55-59 [defmt] *)
Definition aid_debug (a : AssociationID) : bytes := fmt_dec (aid_aid a).
(** /repo/src/elements/rsn.rs:370-374 [Display] *)
Definition pmkid_display (x : bytes) : bytes := fmt_pad 16 (fmt_int 16 (be_val x)).
(** /repo/src/elements/rsn.rs:376-380 [defmt] *)
Definition pmkid_defmt (x : bytes) : bytes := fmt_int 16 (be_val x).
(** /repo/src/elements/rates/mod.rs:41-49 [Display]. Half of a number below 128 is exact as [f32]; its text has no fraction or ".5". *)
Definition rate_display (r : N) : bytes :=
  let rate := lget EncodedRate_layout "rate" r in
  fmt_dec (rate / 2) ++ (if N.odd rate then str ".5" else []) ++ str "Mbit/s " ++
  (if lgetb EncodedRate_layout "is_b" r then str " (B)" else []).
(** the derived [Debug] of [VHTMCSSupport], vht.rs:72-81 *)
Definition vht_mcs_debug (x : VHTMCSSupport) : bytes :=
  match x with
  | Vm_ZeroToSeven => str "ZeroToSeven"
  | Vm_ZeroToEight => str "ZeroToEight"
  | Vm_ZeroToNine => str "ZeroToNine"
  | Vm_NotSupported => str "NotSupported"
  | Vm_Unknown n => str "Unknown(" ++ fmt_dec n ++ str ")"
  end.
(** /repo/src/elements/vht.rs:118-122 [Debug] *)
Definition vht_map_debug (m : N) : bytes := fmt_list (map vht_mcs_debug (vht_mcs_support_iter m)).

Section Tim.
Context {cfg : Cfg}.
(** /repo/src/elements/tim.rs:104-108, 146-150 [Debug] *)
Definition bm_debug (b : Bitmap) : Res serr bytes := bs <- bm_bytes b ;; Ok (fmt_list (map fmt_dec bs)).
(** /repo/src/elements/tim.rs:286-300 [Display] *)
Definition tb_display (t : TIMBitmap) : Res serr bytes :=
  l <- tb_aid_iter t ;;
  Ok (fmt_list ((if tb_traffic t then [fmt_dec 0] else []) ++ match l with Some l => map aid_debug l | None => [] end)).
(** /repo/src/elements/tim.rs:302-315 [defmt]: behind the closing bracket of a list with entries the empty list is written as well *)
Definition tb_defmt (t : TIMBitmap) : Res serr bytes :=
  l <- tb_aid_iter t ;;
  Ok (match l with
      | Some (first :: rest) =>
          str "[" ++ fmt_dec (aid_aid first) ++ flat_map (fun a => str ", " ++ fmt_dec (aid_aid a)) rest ++ str "]"
      | _ => []
      end ++ str "[]").
(** /repo/src/elements/tim.rs:520-533 [Display] *)
Definition te_display (t : TIM) : Res serr bytes :=
  bitmap <- (match te_bitmap t with
             | Some b => x <- tb_display b ;; Ok [(str "association_ids", x)]
             | None => Ok []
             end) ;;
  Ok (fmt_struct (str "TIMElement") ([(str "dtim_count", fmt_dec (te_count t)); (str "dtim_period", fmt_dec (te_period t))] ++ bitmap)).
(** /repo/src/elements/tim.rs:535-545 [defmt]; an option is written as [None] or [Some(...)] *)
Definition te_defmt (t : TIM) : Res serr bytes :=
  bitmap <- (match te_bitmap t with
             | Some b => x <- tb_defmt b ;; Ok (str "Some(" ++ x ++ str ")")
             | None => Ok (str "None")
             end) ;;
  Ok (str "TIMElement { dtim_count: " ++ fmt_dec (te_count t) ++ str ", dtim_period: " ++ fmt_dec (te_period t) ++
      str ", bitmap: " ++ bitmap ++ str " }").
End Tim.
