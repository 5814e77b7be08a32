(** Data frames: /repo/src/frames/data_frame/header.rs and mod.rs. *)
From Verif Require Import Base Bits Layouts Enums Common Crc Mgmt CryptoHeader Amsdu.

(** ** Header *)
(** header.rs:16-34. Addresses are six bytes, [qos] two, [ht_control] four; flags and sequence
    control are the raw numbers. *)
Record DataHeader := mkDH {
  dh_subtype : DataFrameSubtype; dh_flags : N; dh_duration : N;
  dh_a1 : bytes; dh_a2 : bytes; dh_a3 : bytes; dh_seq : N;
  dh_a4 : option bytes; dh_qos : option bytes; dh_ht : option bytes
}.
(** header.rs:45-58 *)
Definition dh_length (h : DataHeader) : nat :=
  24 + (match dh_a4 h with Some _ => 6 | None => 0 end)
     + (match dh_qos h with Some _ => 2 | None => 0 end)
     + (match dh_ht h with Some _ => 4 | None => 0 end).
(** header.rs:60-66 *)
Definition is_amsdu (h : DataHeader) : bool :=
  match dh_qos h with
  | Some qos => N.testbit (nth 0 qos 0%N) 7 && data_has_payload (dh_subtype h)
  | None => false
  end.
(** header.rs:72-80 *)
Definition is_no_cf (h : DataHeader) : bool :=
  match dh_subtype h with Dt_Data | Dt_Null | Dt_QoSData | Dt_QoSNull => true | _ => false end.
(** header.rs:86-91 *)
Definition is_cf_ack (h : DataHeader) : bool :=
  match dh_subtype h with Dt_DataCFAck | Dt_CFAck | Dt_QoSDataCFAck => true | _ => false end.
(** header.rs:97-105 *)
Definition is_cf_poll (h : DataHeader) : bool :=
  match dh_subtype h with Dt_DataCFPoll | Dt_CFPoll | Dt_QoSDataCFPoll | Dt_QoSCFPoll => true | _ => false end.
(** header.rs:111-119 *)
Definition is_cf_ack_poll (h : DataHeader) : bool :=
  match dh_subtype h with
  | Dt_DataCFAckCFPoll | Dt_CFAckCFPoll | Dt_QoSDataCFAckCFPoll | Dt_QoSCFAckCFPoll => true | _ => false end.
(** header.rs:124-126 *)
Definition receiver_address (h : DataHeader) : bytes := dh_a1 h.
(** header.rs:131-133 *)
Definition transmitter_address (h : DataHeader) : bytes := dh_a2 h.
(** header.rs:142-150 *)
Definition destination_address (h : DataHeader) : option bytes :=
  if negb (to_ds (dh_flags h)) then Some (dh_a1 h)
  else if negb (is_amsdu h) then Some (dh_a3 h)
  else None.
(** header.rs:172-182 *)
Definition source_address (h : DataHeader) : option bytes :=
  if negb (from_ds (dh_flags h)) then Some (dh_a2 h)
  else if negb (to_ds (dh_flags h)) && from_ds (dh_flags h) && negb (is_amsdu h) then Some (dh_a3 h)
  else if to_ds (dh_flags h) && from_ds (dh_flags h) && negb (is_amsdu h) then dh_a4 h
  else None.
(** header.rs:206-216 *)
Definition bssid (h : DataHeader) : option bytes :=
  if negb (to_ds (dh_flags h)) && negb (from_ds (dh_flags h)) then Some (dh_a3 h)
  else if from_ds (dh_flags h) then Some (dh_a2 h)
  else if to_ds (dh_flags h) then Some (dh_a1 h)
  else None.
Definition set_a1 (a : bytes) (h : DataHeader) : DataHeader :=
  mkDH (dh_subtype h) (dh_flags h) (dh_duration h) a (dh_a2 h) (dh_a3 h) (dh_seq h) (dh_a4 h) (dh_qos h) (dh_ht h).
Definition set_a2 (a : bytes) (h : DataHeader) : DataHeader :=
  mkDH (dh_subtype h) (dh_flags h) (dh_duration h) (dh_a1 h) a (dh_a3 h) (dh_seq h) (dh_a4 h) (dh_qos h) (dh_ht h).
Definition set_a3 (a : bytes) (h : DataHeader) : DataHeader :=
  mkDH (dh_subtype h) (dh_flags h) (dh_duration h) (dh_a1 h) (dh_a2 h) a (dh_seq h) (dh_a4 h) (dh_qos h) (dh_ht h).
Definition set_a4 (a : option bytes) (h : DataHeader) : DataHeader :=
  mkDH (dh_subtype h) (dh_flags h) (dh_duration h) (dh_a1 h) (dh_a2 h) (dh_a3 h) (dh_seq h) a (dh_qos h) (dh_ht h).
(** The mutable accessors return an optional reference; modelled as the header after storing [a]
    through it. header.rs:154-162 *)
Definition destination_address_mut (h : DataHeader) (a : bytes) : option DataHeader :=
  if negb (to_ds (dh_flags h)) then Some (set_a1 a h)
  else if negb (is_amsdu h) then Some (set_a3 a h)
  else None.
(** header.rs:186-196 *)
Definition source_address_mut (h : DataHeader) (a : bytes) : option DataHeader :=
  if negb (from_ds (dh_flags h)) then Some (set_a2 a h)
  else if negb (to_ds (dh_flags h)) && from_ds (dh_flags h) && negb (is_amsdu h) then Some (set_a3 a h)
  else if to_ds (dh_flags h) && from_ds (dh_flags h) && negb (is_amsdu h) then
    match dh_a4 h with Some _ => Some (set_a4 (Some a) h) | None => None end
  else None.
(** header.rs:220-230 *)
Definition bssid_mut (h : DataHeader) (a : bytes) : option DataHeader :=
  if (negb (to_ds (dh_flags h)) && negb (from_ds (dh_flags h))) || is_amsdu h then Some (set_a3 a h)
  else if from_ds (dh_flags h) then Some (set_a2 a h)
  else if to_ds (dh_flags h) then Some (set_a1 a h)
  else None.

Section Data.
Context {cfg : Cfg}.
(** reading an optional field of [n] bytes *)
Definition rd_opt (present : bool) (n : nat) (from : bytes) (off : nat) : Res serr (option bytes * nat) :=
  if present then '(x, off) <- gread (rd_bytes n) from off ;; Ok (Some x, off) else Ok (None, off).
(** header.rs:237-286; duration and sequence control are read in native byte order *)
Definition rd_data_header : reader DataHeader := fun from =>
  '(fcf, off) <- gread (rd_le 2) from 0 ;;
  match fcf_frame_type fcf with
  | FT_Data subtype =>
    '(duration, off) <- gread (rd_ne 2) from off ;;
    '(a1, off) <- gread (rd_bytes 6) from off ;;
    '(a2, off) <- gread (rd_bytes 6) from off ;;
    '(a3, off) <- gread (rd_bytes 6) from off ;;
    '(seq, off) <- gread (rd_ne 2) from off ;;
    '(a4, off) <- rd_opt (to_ds (fcf_flags fcf) && from_ds (fcf_flags fcf)) 6 from off ;;
    '(qos, off) <- rd_opt (data_is_qos subtype) 2 from off ;;
    '(ht, off) <- rd_opt (order (fcf_flags fcf)) 4 from off ;;
    Ok (mkDH subtype (fcf_flags fcf) duration a1 a2 a3 seq a4 qos ht, off)
  | _ => Err BadInput
  end.
Definition opt_bytes (o : option bytes) : list writer := match o with Some b => [wr_bytes b] | None => [] end.
(** header.rs:287-313; without the frame control field *)
Definition wr_data_header (h : DataHeader) : writer :=
  wseq ([wr_le 2 (dh_duration h); wr_bytes (dh_a1 h); wr_bytes (dh_a2 h); wr_bytes (dh_a3 h); wr_le 2 (dh_seq h)]
        ++ opt_bytes (dh_a4 h) ++ opt_bytes (dh_qos h) ++ opt_bytes (dh_ht h)).
(** header.rs:37-41 [get_fcf]. A subtype [Unknown(n)] that does not fit into four bits panics in
    debug builds. *)
Definition data_fcf {E} (h : DataHeader) : Res E N :=
  x <- lwith FrameControlField_layout "frame_type" (frame_type_into_bits (FT_Data (dh_subtype h))) 0 ;;
  Ok (fcf_with_flags (dh_flags h) x).

(** ** Frames *)
(** mod.rs:106-116; [P] is a byte string when read and a [Container] when written *)
Definition DataFrame (P : Type) : Type := DataHeader * option P.
(** mod.rs:119-126 *)
Definition data_length (d : DataFrame bytes) : nat :=
  dh_length (fst d) + match snd d with Some p => length p | None => 0 end.
(** mod.rs:172-182 *)
Definition data_measure (d : DataFrame Container) (fcs : bool) : nat :=
  dh_length (fst d) + (match snd d with Some p => c_measure p | None => 0 end) + (if fcs then 4 else 0).
(** mod.rs:183-208; the reported size does not include the payload *)
Definition rd_data (fcs : bool) : reader (DataFrame bytes) := fun from =>
  from <- (if fcs then strip_and_validate_fcs from else Ok from) ;;
  '(header, off) <- gread rd_data_header from 0 ;;
  if data_has_payload (dh_subtype header) then
    payload <- slice_from from off ;; Ok ((header, Some payload), off)
  else Ok ((header, None), off).
(** mod.rs:209-231 *)
Definition wr_data (d : DataFrame Container) (fcs : bool) : writer := fun buf =>
  fcf <- data_fcf (fst d) ;;
  '(buf, off) <- wseq [wr_le 2 fcf; wr_data_header (fst d)] buf ;;
  '(buf, off) <- match snd d with Some p => gwrite (c_write p) buf off | None => Ok (buf, off) end ;;
  if fcs then attach_fcs buf off else Ok (buf, off).

(** ** Payloads *)
(** mod.rs:29-32 *)
Inductive DataPayload := Pl_Single (bs : bytes) | Pl_AMSDU (st : option bytes).
(** mod.rs:35-40 *)
Definition payload_length (p : DataPayload) : nat :=
  match p with Pl_Single bs => length bs | Pl_AMSDU st => amsdu_iter_length st end.
(** mod.rs:47-59 *)
Definition rd_payload (amsdu : bool) : reader DataPayload := fun from =>
  Ok (if amsdu then Pl_AMSDU (Some from) else Pl_Single from, length from).
(** mod.rs:60-68 *)
Definition c_payload (p : DataPayload) : Container :=
  mkC (payload_length p)
      (fun buf => match p with
                  | Pl_Single bs => pwrite (wr_bytes bs) buf 0
                  | Pl_AMSDU st => pwrite (wr_bytes (match st with Some bs => bs | None => [] end)) buf 0
                  end).
(** mod.rs:74-79 *)
Inductive Wrapped (P : Type) := Unwrapped (p : P) | CryptoWrapped (w : CryptoWrapper P).
(** mod.rs:132-148; [None] of the Rust function is [Ok None] *)
Definition potentially_wrapped_payload (d : DataFrame bytes) (mic : option MicState) : Res serr (option (Wrapped DataPayload)) :=
  match snd d with
  | None => Ok None
  | Some payload =>
    if protected (dh_flags (fst d)) then
      match mic with
      | None => Ok None
      | Some mic => w <- res_unwrap (pread (rd_wrapped mic (rd_payload (is_amsdu (fst d)))) payload 0) ;;
                    Ok (Some (CryptoWrapped _ w))
      end
    else
      o <- res_ok (pread (rd_payload (is_amsdu (fst d))) payload 0) ;;
      Ok (match o with Some p => Some (Unwrapped _ p) | None => None end)
  end.
(** mod.rs:83-98 *)
Definition wrapped_payload {P} (w : Wrapped P) : P :=
  match w with Unwrapped _ p => p | CryptoWrapped _ w => cw_payload w end.
(** mod.rs:153-170 *)
Definition set_protected (h : DataHeader) : DataHeader :=
  mkDH (dh_subtype h) (lsetb FCFFlags_layout "protected" true (dh_flags h)) (dh_duration h)
       (dh_a1 h) (dh_a2 h) (dh_a3 h) (dh_seq h) (dh_a4 h) (dh_qos h) (dh_ht h).
Definition crypto_wrap {P} (d : DataFrame P) (ch : CryptoHeader) (mic : MicState) : DataFrame (CryptoWrapper P) :=
  (set_protected (fst d), match snd d with Some p => Some (mkCW ch p mic) | None => None end).
(** a wrapped frame as a value to be written *)
Definition wrapped_container (d : DataFrame (CryptoWrapper Container)) : DataFrame Container :=
  (fst d, match snd d with Some w => Some (c_crypto w) | None => None end).
End Data.
