(** The MAC header fields all frames share and what distinguishes the frame types (IEEE 802.11-2020,
    9.2.4.1, 9.3), on the bytes. *)
From Verif Require Import Base SpecBase Enums Common SpecCommon SpecElementTypes Mgmt SpecMgmt Data SpecData Control Generic.

Definition byte (g : bytes) (i : nat) : N := nth i g 0%N.
(** bits 2 and 3, and 4 to 7, of the first byte *)
Definition frame_type_bits (g : bytes) : N := ((byte g 0 / 4) mod 4)%N.
Definition frame_subtype_bits (g : bytes) : N := ((byte g 0 / 16) mod 16)%N.
(** [n] bytes at [off], if they are there *)
Definition field_at (n off : nat) (g : bytes) : option bytes :=
  if off + n <=? length g then Some (firstn n (skipn off g)) else None.
(** management and data frames have three addresses and a sequence control field *)
Definition mgmt_or_data (g : bytes) : bool := ((frame_type_bits g =? 0) || (frame_type_bits g =? 2))%N.
(** control frames with a second address: Beamforming Report Poll, VHT NDP Announcement, BlockAckReq,
    BlockAck, PS-Poll, RTS, CF-End and CF-End + CF-Ack *)
Definition has_second_address (g : bytes) : bool :=
  mgmt_or_data g ||
  ((frame_type_bits g =? 1)%N && existsb (N.eqb (frame_subtype_bits g)) [4; 5; 8; 9; 10; 11; 14; 15]%N).
(** the four the library does not know *)
Definition missed_second_address (g : bytes) : bool :=
  (frame_type_bits g =? 1)%N && existsb (N.eqb (frame_subtype_bits g)) [4; 5; 11; 15]%N.
(** the body of a management frame: behind 24 bytes, or 28 with the order flag (HT control) *)
Definition mgmt_body (g : bytes) : bytes := skipn (if N.testbit (byte g 1) 7 then 28 else 24) g.
Definition is_type (t : N) (g : bytes) : Prop := frame_type_bits g = t.
Definition is_mgmt (s : N) (g : bytes) : Prop := frame_type_bits g = 0%N /\ frame_subtype_bits g = s.
(** an action frame with these bytes (category, action) at the start of its body *)
Definition is_action (prefix : bytes) (g : bytes) : Prop :=
  is_mgmt 13 g /\ mgmt_body g <> [] /\ exists more, mgmt_body g = prefix ++ more.

Section Spec.
Context {cfg : Cfg}.
(** the frame types of the library and what they stand for *)
Definition kinds : list (FrameKind * (bytes -> Prop)) :=
  [(mgmt_kind Beacon, is_mgmt 8); (mgmt_kind ProbeResponse, is_mgmt 5); (mgmt_kind ProbeRequest, is_mgmt 4);
   (mgmt_kind Authentication, is_mgmt 11); (mgmt_kind AssociationRequest, is_mgmt 0); (mgmt_kind AssociationResponse, is_mgmt 1);
   (mgmt_kind Deauthentication, is_mgmt 12); (mgmt_kind Disassociation, is_mgmt 10);
   (mgmt_kind RawVendorSpecificAction, is_action [127]%N); (mgmt_kind MeshPeeringOpen, is_action [15; 1]%N);
   (mgmt_kind MeshPeeringConfirm, is_action [15; 2]%N); (mgmt_kind MeshPeeringClose, is_action [15; 3]%N);
   (data_kind, is_type 2); (ctrl_kind, is_type 1)].
(** the type of all action frames *)
Definition raw_kind : FrameKind * (bytes -> Prop) := (mgmt_kind RawAction, is_action []).
End Spec.

(** The arms of a [match_frames!] together with the positions of their types in [kinds], no type twice *)
Definition typed_arms {cfg : Cfg} {A} (l : list (nat * Arm A)) : Prop :=
  NoDup (map fst l) /\ Forall (fun ia => exists P, nth_error kinds (fst ia) = Some (arm_kind _ (snd ia), P)) l.
(** the payload of a data frame: behind the header announced by the first two bytes *)
Definition data_payload (g : bytes) : bytes := skipn (data_header_size (byte g 0) (byte g 1)) g.
(** A data frame with payload, complete header, and EtherType 0x888e behind an LLC/SNAP header. *)
Definition is_eapol (g : bytes) : Prop :=
  is_type 2 g /\ N.testbit (frame_subtype_bits g) 2 = false /\
  field_at 2 (data_header_size (byte g 0) (byte g 1) + 6) g = Some [0x88; 0x8e]%N.

(** ** Control frames, 9.3.1: duration and addresses (the frame control field is handled by the user) *)
Definition ok_ctrl (c : ControlFrame) : Prop :=
  u8 (ctrl_flags c) /\
  match c with
  | C_RTS _ d ra ta => u16 d /\ address ra /\ address ta
  | C_CTS _ d ra | C_Ack _ d ra => u16 d /\ address ra
  | C_Unknown s _ body => canonical_frame_type (FT_Control s) /\ s <> Ct_RTS /\ s <> Ct_CTS /\ s <> Ct_Ack /\ wf_bytes body
  end.
Definition enc_ctrl (c : ControlFrame) : bytes :=
  match c with
  | C_RTS _ d ra ta => le_bytes 2 d ++ ra ++ ta
  | C_CTS _ d ra | C_Ack _ d ra => le_bytes 2 d ++ ra
  | C_Unknown _ _ body => body
  end.
