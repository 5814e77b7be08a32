(** Frames of unknown type: /repo/src/frames/mod.rs. *)
From Verif Require Import Base Enums Common Crc Mgmt Data.

(** mod.rs:19-29: what the trait [IEEE80211Frame] says about a type *)
Record FrameKind := mkFK { fk_type : FrameType; fk_action_matches : RawActionBody -> Res serr bool }.
(** derived [PartialEq] of the subtypes. Two management subtypes are equal iff they are the same
    variant with the same number. *)
Definition mgmt_subtype_eqb (a b : ManagementFrameSubtype) : bool :=
  match a, b with
  | Mg_AssociationRequest, Mg_AssociationRequest | Mg_AssociationResponse, Mg_AssociationResponse
  | Mg_ProbeRequest, Mg_ProbeRequest | Mg_ProbeResponse, Mg_ProbeResponse | Mg_Beacon, Mg_Beacon
  | Mg_ATIM, Mg_ATIM | Mg_Disassociation, Mg_Disassociation | Mg_Authentication, Mg_Authentication
  | Mg_Deauthentication, Mg_Deauthentication | Mg_Action, Mg_Action | Mg_ActionNoACK, Mg_ActionNoACK => true
  | Mg_Unknown m, Mg_Unknown n => (m =? n)%N
  | _, _ => false
  end.

Section Generic.
Context {cfg : Cfg}.
(** the implementations of [IEEE80211Frame]: mgmt_frame/mod.rs:60-65, data_frame/mod.rs:232-234,
    control_frame/mod.rs:175-177 *)
Definition mgmt_kind {W R} (t : BodyType W R) : FrameKind := mkFK (FT_Management (bt_subtype t)) (bt_action_matches t).
Definition data_kind : FrameKind := mkFK (FT_Data Dt_Data) (fun _ => Ok false).
Definition ctrl_kind : FrameKind := mkFK (FT_Control Ct_RTS) (fun _ => Ok false).

(** mod.rs:42-55; a [GenericFrame] is its byte string *)
Definition gf_new (bs : bytes) (fcs : bool) : Res serr bytes :=
  bs <- (if fcs then strip_and_validate_fcs bs else Ok bs) ;;
  if length bs <? 10 then Err BadInput else Ok bs.
(** mod.rs:60-62 *)
Definition gf_fcf (g : bytes) : Res serr N := res_unwrap (pread (rd_le 2) g 0).
(** mod.rs:67-69 *)
Definition gf_duration (g : bytes) : Res serr N := res_unwrap (pread (rd_le 2) g 2).
(** mod.rs:74-76 *)
Definition gf_address_1 (g : bytes) : Res serr bytes := res_unwrap (pread (rd_bytes 6) g 4).
(** mod.rs:81-87 *)
Definition gf_address_2 (g : bytes) : Res serr (option bytes) :=
  fcf <- gf_fcf g ;;
  if ft_has_address_2 (fcf_frame_type fcf) then res_ok (pread (rd_bytes 6) g 10) else Ok None.
(** mod.rs:92-98 *)
Definition gf_address_3 (g : bytes) : Res serr (option bytes) :=
  fcf <- gf_fcf g ;;
  if ft_has_address_3 (fcf_frame_type fcf) then res_ok (pread (rd_bytes 6) g 16) else Ok None.
(** mod.rs:103-113; native byte order *)
Definition gf_sequence_control (g : bytes) : Res serr (option N) :=
  fcf <- gf_fcf g ;;
  if ft_has_sequence_control (fcf_frame_type fcf) then res_ok (pread (rd_ne 2) g 22) else Ok None.
(** mod.rs:115-133. The type in the second arm is never [Control] or [Data] (the first arm has taken
    these); [Unknown] types are not implemented by any frame. *)
Definition gf_matches (k : FrameKind) (g : bytes) : Res serr bool :=
  fcf <- gf_fcf g ;;
  match fcf_frame_type fcf, fk_type k with
  | FT_Control _, FT_Control _ | FT_Data _, FT_Data _ => Ok true
  | FT_Management s, FT_Management s' =>
    if mgmt_subtype_eqb s s' then
      match s' with
      | Mg_Action | Mg_ActionNoACK =>
        match pread (rd_mgmt RawAction false) g 0 with
        | Ok (_, body) => fk_action_matches k body
        | Err _ => Ok false
        | Panic => Panic
        end
      | _ => Ok true
      end
    else Ok false
  | FT_Unknown m, FT_Unknown n => Ok (m =? n)%N
  | _, _ => Ok false
  end.
(** mod.rs:135-143; [None] of the Rust function is [Ok None], [Some(Err(e))] is [Err e] *)
Definition gf_parse {A} (k : FrameKind) (r : bool -> reader A) (g : bytes) : Res serr (option A) :=
  m <- gf_matches k g ;;
  if m then x <- pread (r false) g 0 ;; Ok (Some x) else Ok None.
(** mod.rs:144-159 *)
Definition gf_is_eapol_key_frame (g : bytes) : Res serr bool :=
  fcf <- gf_fcf g ;;
  match fcf_frame_type fcf with
  | FT_Data subtype =>
    if negb (data_has_payload subtype) then Ok false
    else match gf_parse data_kind rd_data g with
         | Ok (Some (_, Some payload)) =>
           (** [payload.get(6..8) == Some(&[0x88, 0x8e])] *)
           Ok ((8 <=? length payload) && arr_eqb (firstn 2 (skipn 6 payload)) [0x88; 0x8e]%N)
         | Ok _ | Err _ => Ok false
         | Panic => Panic
         end
  | _ => Ok false
  end.

(** An arm of [match_frames!]: a frame type, its reader and the block (as a function). *)
Record Arm (A : Type) := mkArm { arm_type : Type; arm_kind : FrameKind; arm_read : bool -> reader arm_type; arm_block : arm_type -> A }.
Arguments mkArm {A arm_type}. Arguments arm_kind {A}. Arguments arm_read {A}. Arguments arm_block {A}.
Fixpoint try_arms {A} (arms : list (Arm A)) (g : bytes) : Res serr A :=
  match arms with
  | [] => Err BadInput
  | a :: arms' =>
    m <- gf_matches (arm_kind a) g ;;
    if m then x <- pread (arm_read a false) g 0 ;; Ok (arm_block a x) else try_arms arms' g
  end.
(** mod.rs:166-208; [with_fcs] is the optional argument of the macro, of which only the presence
    counts *)
Definition match_frames {A} (bs : bytes) (with_fcs : option bool) (arms : list (Arm A)) : Res serr A :=
  g <- gf_new bs (match with_fcs with Some _ => true | None => false end) ;;
  try_arms arms g.
End Generic.
