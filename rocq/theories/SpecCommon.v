(** Specifications for the common types, independent of the model's helpers. *)
From Coq Require Import List NArith Bool.
From Verif Require Import Enums Common.
Local Open Scope N_scope.

(** IEEE 802.11-2020, 9.2.4.1: the frame control field as a number. *)
Definition spec_version (x : N) : N := x mod 4.
Definition spec_type (x : N) : N := (x / 4) mod 4.
Definition spec_subtype (x : N) : N := (x / 16) mod 16.
Definition spec_flags (x : N) : N := (x / 256) mod 256.

(** the pair (type, subtype) a frame type stands for *)
Definition spec_type_of (t : FrameType) : N * N :=
  match t with
  | FT_Management s => (0, mgmt_subtype_into_bits s)
  | FT_Control s => (1, ctrl_subtype_into_bits s)
  | FT_Data s => (2, data_subtype_into_bits s)
  | FT_Unknown s => (3, s)
  end.
(** Frame types a parser can return: the subtype fits into four bits and named subtypes are not
    written as [Unknown]. *)
Definition canonical_frame_type (t : FrameType) : Prop :=
  match t with
  | FT_Management s => mgmt_subtype_into_bits s < 16 /\ mgmt_subtype_from_bits (mgmt_subtype_into_bits s) = s
  | FT_Control s => ctrl_subtype_into_bits s < 16 /\ ctrl_subtype_from_bits (ctrl_subtype_into_bits s) = s
  | FT_Data s => data_subtype_into_bits s < 16 /\ data_subtype_from_bits (data_subtype_into_bits s) = s
  | FT_Unknown s => s < 16
  end.

(** IEEE 802.11-2020, 9.3.1: control frames whose format has a TA/BSSID field after the RA field. *)
Definition spec_ctrl_has_second_address (s : ControlFrameSubtype) : bool :=
  match s with
  | Ct_BeamformingReportPoll | Ct_VHTNDPAnnouncement | Ct_BlockAckRequest | Ct_BlockAck
  | Ct_PSPoll | Ct_RTS | Ct_CFEnd | Ct_CFEndAck => true
  | _ => false
  end.
