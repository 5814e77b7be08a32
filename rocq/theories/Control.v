(** Control frames: /repo/src/frames/control_frame/mod.rs. *)
From Verif Require Import Base Bits Layouts Enums Common.

(** mod.rs:13-35; addresses are six bytes *)
Inductive ControlFrame :=
| C_RTS (flags duration : N) (ra ta : bytes)
| C_CTS (flags duration : N) (ra : bytes)
| C_Ack (flags duration : N) (ra : bytes)
| C_Unknown (subtype : ControlFrameSubtype) (flags : N) (body : bytes).
(** mod.rs:38-45 *)
Definition ctrl_length (c : ControlFrame) : nat :=
  match c with
  | C_RTS _ _ _ _ => 14
  | C_CTS _ _ _ => 8
  | C_Ack _ _ _ => 14
  | C_Unknown _ _ body => length body
  end.
(** mod.rs:47-54 *)
Definition ctrl_subtype (c : ControlFrame) : ControlFrameSubtype :=
  match c with
  | C_RTS _ _ _ _ => Ct_RTS
  | C_CTS _ _ _ => Ct_CTS
  | C_Ack _ _ _ => Ct_Ack
  | C_Unknown s _ _ => s
  end.
(** mod.rs:56-63 *)
Definition ctrl_flags (c : ControlFrame) : N :=
  match c with
  | C_RTS f _ _ _ | C_CTS f _ _ | C_Ack f _ _ | C_Unknown _ f _ => f
  end.
(** mod.rs:86-94 *)
Definition ctrl_transmitter_address (c : ControlFrame) : option bytes :=
  match c with C_RTS _ _ _ ta => Some ta | _ => None end.

Section Control.
Context {cfg : Cfg}.
(** mod.rs:65-69; a subtype [Unknown(n)] that does not fit into four bits panics in debug builds *)
Definition ctrl_fcf {E} (c : ControlFrame) : Res E N :=
  x <- lwith FrameControlField_layout "frame_type" (frame_type_into_bits (FT_Control (ctrl_subtype c))) 0 ;;
  Ok (fcf_with_flags (ctrl_flags c) x).
(** mod.rs:71-84; the default address is all zero *)
Definition ctrl_receiver_address (c : ControlFrame) : bytes :=
  match c with
  | C_RTS _ _ ra _ | C_CTS _ _ ra | C_Ack _ _ ra => ra
  | C_Unknown _ _ body => match pread (rd_bytes 6) body 2 with Ok a => a | _ => repeat 0%N 6 end
  end.
(** mod.rs:96-131 *)
Definition rd_ctrl (subtype : ControlFrameSubtype) (flags : N) : reader ControlFrame := fun from =>
  match subtype with
  | Ct_RTS =>
    '(duration, off) <- gread (rd_le 2) from 0 ;;
    '(ra, off) <- gread (rd_bytes 6) from off ;;
    '(ta, off) <- gread (rd_bytes 6) from off ;;
    Ok (C_RTS flags duration ra ta, off)
  | Ct_CTS =>
    '(duration, off) <- gread (rd_le 2) from 0 ;;
    '(ra, off) <- gread (rd_bytes 6) from off ;;
    Ok (C_CTS flags duration ra, off)
  | Ct_Ack =>
    '(duration, off) <- gread (rd_le 2) from 0 ;;
    '(ra, off) <- gread (rd_bytes 6) from off ;;
    Ok (C_Ack flags duration ra, off)
  | _ => Ok (C_Unknown subtype flags from, length from)
  end.
(** mod.rs:137-174 *)
Definition wr_ctrl (c : ControlFrame) : writer :=
  match c with
  | C_RTS _ duration ra ta => wseq [wr_le 2 duration; wr_bytes ra; wr_bytes ta]
  | C_CTS _ duration ra | C_Ack _ duration ra => wseq [wr_le 2 duration; wr_bytes ra]
  | C_Unknown _ _ body => wseq [wr_bytes body]
  end.
End Control.
