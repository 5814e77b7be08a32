(** Common types: /repo/src/common. *)
From Verif Require Import Base Bits Layouts Enums.
Local Open Scope N_scope.

(** ** Frame control field, /repo/src/common/mod.rs *)
(** mod.rs:38-43 *)
Inductive FrameType :=
| FT_Management (s : ManagementFrameSubtype)
| FT_Control (s : ControlFrameSubtype)
| FT_Data (s : DataFrameSubtype)
| FT_Unknown (s : N).

(** mod.rs:46-55; the argument is a [u8] *)
Definition frame_type_from_bits (value : N) : FrameType :=
  let frame_type := N.land value 3 in
  let frame_subtype := N.shiftr (N.land value 0x3c) 2 in
  match frame_type with
  | 0 => FT_Management (mgmt_subtype_from_bits frame_subtype)
  | 1 => FT_Control (ctrl_subtype_from_bits frame_subtype)
  | 2 => FT_Data (data_subtype_from_bits frame_subtype)
  | _ => FT_Unknown frame_subtype
  end.
(** [u8] left shift by two *)
Definition shl2_u8 (x : N) : N := N.land (N.shiftl x 2) 255.
(** mod.rs:57-64 *)
Definition frame_type_into_bits (t : FrameType) : N :=
  match t with
  | FT_Management s => shl2_u8 (mgmt_subtype_into_bits s)
  | FT_Control s => N.lor 1 (shl2_u8 (ctrl_subtype_into_bits s))
  | FT_Data s => N.lor 2 (shl2_u8 (data_subtype_into_bits s))
  | FT_Unknown s => N.lor 3 (shl2_u8 s)
  end.
(** mod.rs:66-68 *)
Definition type_matches (a b : FrameType) : bool :=
  match a, b with
  | FT_Management _, FT_Management _ | FT_Control _, FT_Control _
  | FT_Data _, FT_Data _ | FT_Unknown _, FT_Unknown _ => true
  | _, _ => false
  end.
(** mod.rs:70-72 *)
Definition ft_has_sequence_control (t : FrameType) : bool :=
  match t with FT_Data _ | FT_Management _ => true | _ => false end.
(** /repo/src/common/subtypes/control.rs:27-32 *)
Definition ctrl_has_address_2 (s : ControlFrameSubtype) : bool :=
  match s with
  | Ct_PSPoll | Ct_CFEnd | Ct_BlockAckRequest | Ct_BlockAck => true
  | _ => false
  end.
(** mod.rs:74-80 *)
Definition ft_has_address_2 (t : FrameType) : bool :=
  match t with
  | FT_Data _ | FT_Management _ => true
  | FT_Control s => ctrl_has_address_2 s
  | _ => false
  end.
(** mod.rs:82-84 *)
Definition ft_has_address_3 (t : FrameType) : bool :=
  match t with FT_Data _ | FT_Management _ => true | _ => false end.

(** mod.rs:98-117 [FCFFlags], as the raw [u8] *)
Definition to_ds (f : N) : bool := lgetb FCFFlags_layout "to_ds" f.
Definition from_ds (f : N) : bool := lgetb FCFFlags_layout "from_ds" f.
Definition order (f : N) : bool := lgetb FCFFlags_layout "order" f.
Definition protected (f : N) : bool := lgetb FCFFlags_layout "protected" f.

(** mod.rs:118-128 [FrameControlField], as the raw [u16] *)
Definition fcf_version (x : N) : N := lget FrameControlField_layout "version" x.
Definition fcf_frame_type (x : N) : FrameType :=
  frame_type_from_bits (lget FrameControlField_layout "frame_type" x).
Definition fcf_flags (x : N) : N := lget FrameControlField_layout "flags" x.
(** [FrameControlField::new().with_frame_type(t).with_flags(f)]; the debug assertion on the
    width of the frame type is not modelled here (it holds for canonical frame types) *)
Definition fcf_with_version (v x : N) : N := lset FrameControlField_layout "version" v x.
Definition fcf_with_frame_type (t : FrameType) (x : N) : N :=
  lset FrameControlField_layout "frame_type" (frame_type_into_bits t) x.
Definition fcf_with_flags (f x : N) : N := lset FrameControlField_layout "flags" f x.
Definition fcf_make (t : FrameType) (f : N) : N := fcf_with_flags f (fcf_with_frame_type t 0).

(** mod.rs:129-137 *)
Definition seq_fragment_number (x : N) : N := lget SequenceControl_layout "fragment_number" x.
Definition seq_sequence_number (x : N) : N := lget SequenceControl_layout "sequence_number" x.

(** ** Data frame subtypes, /repo/src/common/subtypes/data.rs *)
(** data.rs:41-43 *)
Definition data_frame_cf (s : DataFrameSubtype) : DataFrameCF :=
  data_cf_from_bits (N.land (data_subtype_into_bits s) 3).
(** data.rs:45-56 *)
Definition data_is_qos (s : DataFrameSubtype) : bool :=
  match s with
  | Dt_QoSData | Dt_QoSDataCFAck | Dt_QoSDataCFPoll | Dt_QoSDataCFAckCFPoll
  | Dt_QoSNull | Dt_QoSCFPoll | Dt_QoSCFAckCFPoll => true
  | _ => false
  end.
(** data.rs:58-70 *)
Definition data_has_payload (s : DataFrameSubtype) : bool :=
  match s with
  | Dt_Data | Dt_DataCFAck | Dt_DataCFPoll | Dt_DataCFAckCFPoll
  | Dt_QoSData | Dt_QoSDataCFAck | Dt_QoSDataCFPoll | Dt_QoSDataCFAckCFPoll => true
  | _ => false
  end.

(** ** Association IDs, /repo/src/common/aid.rs *)
(** an [AssociationID], as the raw [u16] *)
Definition AssociationID := N.
(** [AssociationID::new()]: the padding has default [0b11], aid.rs:10-14 *)
Definition aid_new : AssociationID := lset AssociationID_layout "padding" 3 0.
(** aid.rs:27-34 *)
Definition aid_new_checked (aid : N) : option AssociationID :=
  let aid := N.land aid (N.ldiff 0xffff 0xc000) in
  if (1 <=? aid) && (aid <=? 2007)
  then Some (lset AssociationID_layout "internal_aid" aid aid_new) else None.
(** aid.rs:37-39; in debug builds a value above 14 bits panics *)
Definition aid_new_unchecked {cfg : Cfg} (aid : N) : Res serr AssociationID :=
  lwith AssociationID_layout "internal_aid" aid aid_new.
(** aid.rs:41-43 *)
Definition aid_aid (a : AssociationID) : N := lget AssociationID_layout "internal_aid" a.
(** aid.rs:45-47 *)
Definition aid_into_bits (a : AssociationID) : N := a.
