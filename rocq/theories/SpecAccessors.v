(** What the accessors are to return, without the code. *)
From Coq Require Import SpecFloat.
From Verif Require Import Base SpecBase Elements SpecElements ElementTypes Rsn Tim Utf8 SpecUtf8 SpecElementTypes.

Section Spec.
Context {cfg : Cfg}.
(** The information of an element is an SSID (9.4.2.2): element ID 0, up to 32 bytes, and UTF-8 as the library wants
    it. If scroll refuses empty reads at the end of data ([strict_end]), the empty SSID is not seen. *)
Definition is_ssid (e : RawElement) (s : bytes) : Prop :=
  e = mkRaw 0 s /\ length s <= 32 /\ is_utf8 s /\ end_ok s.
(** the first SSID among elements *)
Inductive first_ssid : list RawElement -> option bytes -> Prop :=
| fs_none : first_ssid [] None
| fs_here : forall e es s, is_ssid e s -> first_ssid (e :: es) (Some s)
| fs_skip : forall e es r, (forall s, ~ is_ssid e s) -> first_ssid es r -> first_ssid (e :: es) r.

(** what a TIM element holds: count, period, and, if there is a bitmap, the control byte and the bytes of the bitmap *)
Definition tim_content := (N * N * option (N * option bytes))%type.
Definition bitmap_holds (b : option Bitmap) (v : option bytes) : Prop :=
  match b, v with Some b, Some bs => bm_bytes b = Ok bs | None, None => True | _, _ => False end.
Definition tim_holds (t : TIM) (v : tim_content) : Prop :=
  te_count t = fst (fst v) /\ te_period t = snd (fst v) /\
  match te_bitmap t, snd v with
  | Some tb, Some (control, bs) => tb_control tb = control /\ bitmap_holds (tb_bitmap tb) bs
  | None, None => True
  | _, _ => False
  end.
(** the count is not above the period, and all values fit into their fields *)
Definition valid_tim (v : tim_content) : Prop :=
  (fst (fst v) <= snd (fst v))%N /\ (snd (fst v) < 256)%N /\
  match snd v with Some (control, bs) => (control < 256)%N /\ match bs with Some bs => wf_bytes bs | None => True end | None => True end.
(** what a rates element holds: an array its entries, an iterator the received bytes *)
Definition rates_hold (x : RList N) : list N := match x with Arr l => l | Iter bs => bs end.
End Spec.

(** RSN capabilities (9.4.2.24.4): SPP A-MSDU Capable and SPP A-MSDU Required *)
Definition sppc (caps : N) : bool := N.testbit caps 10.
Definition sppr (caps : N) : bool := N.testbit caps 11.
(** Maximum MPDU Length of the VHT capabilities (Table 9-271) *)
Definition mpdu_length (code : N) : option N :=
  (if code =? 0 then Some 3895 else if code =? 1 then Some 7991 else if code =? 2 then Some 11454 else None)%N.
(** sequence control (9.2.4.4): fragment number in four bits, sequence number in twelve *)
Definition sequence_control (fragment sequence : N) : N := (fragment + 16 * sequence)%N.
(** the number [k / 2] as [f32], for rates in multiples of 500 kbit/s *)
Definition half (k : N) : spec_float := binary_normalize 24 128 (Z.of_N k) (-1) false.
