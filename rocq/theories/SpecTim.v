(** The traffic indication map of IEEE Std 802.11-2020, 9.4.2.5, written without the code. *)
From Coq Require Import Sorted.
From Verif Require Import Base SpecBase Common Elements SpecElements Tim.

(** The bitmap control byte: bit 0 is the traffic indicator (group traffic), the other seven bits
    are half of N1, the number of the first byte of the virtual bitmap that is sent. *)
Definition spec_group (control : N) : bool := N.testbit control 0.
Definition spec_n1 (control : N) : nat := 2 * N.to_nat (control / 2).
(** Bit [k] of the traffic indication virtual bitmap is bit [k mod 8] of byte [k / 8]. Bytes before
    N1 and behind the sent part are zero. *)
Definition virtual_bit (n1 : nat) (bs : bytes) (k : nat) : bool :=
  (n1 <=? k / 8) && N.testbit (nth (k / 8 - n1) bs 0%N) (N.of_nat (k mod 8)).
(** traffic is indicated for this association ID *)
Definition indicates (control : N) (bs : bytes) (aid : nat) : Prop :=
  1 <= aid <= 2007 /\ virtual_bit (spec_n1 control) bs aid = true.

(** the numbers of a list of association IDs *)
Definition numbers (l : list AssociationID) : list nat := map (fun a => N.to_nat (aid_aid a)) l.
(** what a TIM reports: exactly these association IDs, each once, in ascending order *)
Definition reports {cfg : Cfg} (t : TIMBitmap) (set : nat -> Prop) : Prop :=
  exists l, tb_aid_iter t = Ok (Some l) /\ StronglySorted lt (numbers l) /\
    forall a, In a (numbers l) <-> set a.

(** The TIM element: count, period, and optionally control byte and bitmap. *)
Definition enc_tim (count period : N) (bitmap : option (N * bytes)) : bytes :=
  [count; period] ++ match bitmap with Some (control, bs) => control :: bs | None => [] end.
(** The element as it is parsed: bytes of the bitmap as a slice. *)
Definition tim_value (count period : N) (bitmap : option (N * bytes)) : TIM :=
  mkTIM count period
    (match bitmap with Some (control, bs) => Some (mkTB control (Some (BSlice bs))) | None => None end).
Definition wf_bitmap (bitmap : option (N * bytes)) : Prop :=
  match bitmap with Some (control, bs) => (control < 256)%N /\ wf_bytes bs | None => True end.
(** a TIM element to be written whose bitmap, of whatever type, shows the given bytes *)
Definition tim_shows {cfg : Cfg} (t : TIM) (count period : N) (bitmap : option (N * bytes)) : Prop :=
  te_count t = count /\ te_period t = period /\
  match bitmap, te_bitmap t with
  | Some (control, bs), Some tb => tb_control tb = control /\ exists b, tb_bitmap tb = Some b /\ bm_bytes b = Ok bs
  | None, None => True
  | _, _ => False
  end.
(** [tb], sent in a TIM element and received, is [tb']. *)
Definition received_alone {cfg : Cfg} (tb tb' : TIMBitmap) : Prop :=
  forall count period, (count <= period)%N -> (period < 256)%N -> exists body,
    Writes (wr_tim (mkTIM count period (Some tb))) body /\
    ReadsAll rd_tim body (mkTIM count period (Some tb')).
(** same, and the element announces its length correctly *)
Definition received {cfg : Cfg} (tb tb' : TIMBitmap) : Prop :=
  forall count period, (count <= period)%N -> (period < 256)%N -> exists body,
    Writes (wr_tim (mkTIM count period (Some tb))) body /\
    et_measure TIMElement (mkTIM count period (Some tb)) = length body /\
    ReadsAll rd_tim body (mkTIM count period (Some tb')).
(** the smallest of the non-zero numbers *)
Definition lowest (aids : list nat) (low : nat) : Prop :=
  In low aids /\ low <> 0 /\ forall a, In a aids -> a <> 0 -> low <= a.
