(** The data frame format of IEEE 802.11-2020, 9.3.2, A-MSDUs (9.3.2.2) and CCMP/GCMP
    encapsulation (12.5.3.2), independent of the reading and writing code. *)
From Verif Require Import Base SpecBase Crc Enums Common SpecCommon SpecElementTypes Mgmt SpecMgmt CryptoHeader Amsdu Data.

(** ** Subtypes, Table 9-1: bit 3 means QoS, bit 2 means no payload; 13 is reserved *)
Definition std_is_qos (subtype : N) : bool := N.testbit subtype 3 && negb (subtype =? 13)%N.
Definition std_has_payload (subtype : N) : bool := negb (N.testbit subtype 2).
Definition subtype_number (h : DataHeader) : N := data_subtype_into_bits (dh_subtype h).

(** ** Header *)
Definition opt_field (present : bool) (n : nat) (o : option bytes) : Prop :=
  match o with Some b => present = true /\ length b = n /\ wf_bytes b | None => present = false end.
Definition enc_opt (o : option bytes) : bytes := match o with Some b => b | None => [] end.
(** The optional fields are present exactly if the frame control field says so: the fourth address
    with ToDS and FromDS, QoS control for QoS subtypes, HT control with the order flag. *)
Definition ok_data_header (h : DataHeader) : Prop :=
  canonical_frame_type (FT_Data (dh_subtype h)) /\ u8 (dh_flags h) /\ u16 (dh_duration h) /\
  address (dh_a1 h) /\ address (dh_a2 h) /\ address (dh_a3 h) /\ u16 (dh_seq h) /\
  opt_field (N.testbit (dh_flags h) 0 && N.testbit (dh_flags h) 1) 6 (dh_a4 h) /\
  opt_field (std_is_qos (subtype_number h)) 2 (dh_qos h) /\
  opt_field (N.testbit (dh_flags h) 7) 4 (dh_ht h).
Definition enc_data_header (h : DataHeader) : bytes :=
  le_bytes 2 (dh_duration h) ++ dh_a1 h ++ dh_a2 h ++ dh_a3 h ++ le_bytes 2 (dh_seq h) ++
  enc_opt (dh_a4 h) ++ enc_opt (dh_qos h) ++ enc_opt (dh_ht h).
(** an unprotected MPDU without FCS *)
Definition enc_data (h : DataHeader) (body : bytes) : bytes :=
  enc_fcf 2 (subtype_number h) (dh_flags h) ++ enc_data_header h ++ body.
(** the length of the header announced by the first two bytes of a frame *)
Definition data_header_size (b0 b1 : N) : nat :=
  24 + (if N.testbit b1 0 && N.testbit b1 1 then 6 else 0)
     + (if std_is_qos ((b0 / 16) mod 16) then 2 else 0)
     + (if N.testbit b1 7 then 4 else 0).

(** ** Address roles, Table 9-30 *)
Inductive AddressField := A1 | A2 | A3 | A4.
Definition field (f : AddressField) (h : DataHeader) : option bytes :=
  match f with A1 => Some (dh_a1 h) | A2 => Some (dh_a2 h) | A3 => Some (dh_a3 h) | A4 => dh_a4 h end.
(** destination (DA) and source (SA) by ToDS, FromDS and A-MSDU; in an A-MSDU between access points
    (or to an access point) they are in the subframes *)
Definition std_da (to from amsdu : bool) : option AddressField :=
  match to, amsdu with
  | false, _ => Some A1
  | true, false => Some A3
  | true, true => None
  end.
Definition std_sa (to from amsdu : bool) : option AddressField :=
  match to, from, amsdu with
  | _, false, _ => Some A2
  | false, true, false => Some A3
  | true, true, false => Some A4
  | _, true, true => None
  end.
(** The BSSID. In the row "from DS" it is the transmitter, in the row "to DS" the receiver. With both
    flags set there is no BSSID in the MSDU case, and address three (and four) in the A-MSDU case. *)
Definition std_bssid (to from amsdu : bool) : option AddressField :=
  match to, from, amsdu with
  | false, false, _ => Some A3
  | false, true, _ => Some A2
  | true, false, _ => Some A1
  | true, true, false => None
  | true, true, true => Some A3
  end.
(** 9.2.4.5: bit 7 of the QoS control field of a frame with payload announces an A-MSDU *)
Definition std_amsdu (h : DataHeader) : bool :=
  match dh_qos h with
  | Some (q :: _) => N.testbit q 7 && std_has_payload (subtype_number h)
  | _ => false
  end.
Definition role (f : option AddressField) (h : DataHeader) : option bytes :=
  match f with Some f => field f h | None => None end.
(** [h'] is [h] with [f] replaced by [a] *)
Definition stored (f : AddressField) (a : bytes) (h h' : DataHeader) : Prop :=
  field f h' = Some a /\ (forall g, g <> f -> field g h' = field g h) /\
  dh_subtype h' = dh_subtype h /\ dh_flags h' = dh_flags h /\ dh_duration h' = dh_duration h /\ dh_seq h' = dh_seq h /\
  dh_qos h' = dh_qos h /\ dh_ht h' = dh_ht h.

(** ** Writers whose output depends on the old content of the buffer (unwritten padding) *)
Section Spec.
Context {cfg : Cfg}.
(** The writer fills the first [n] bytes of every buffer that has room for them with a string
    satisfying [P] and reports [n]. *)
Definition Fills (w : writer) (n : nat) (P : bytes -> Prop) : Prop :=
  forall buf, wf_bytes buf -> n + slack <= length buf ->
  exists bs, length bs = n /\ wf_bytes bs /\ P bs /\ w buf = Ok (bs ++ skipn n buf, n).
(** The payload is there exactly if the subtype has one, and its writer writes [body]. *)
Definition payload_ok (h : DataHeader) (p : option Container) (body : bytes) : Prop :=
  match p with
  | Some c => std_has_payload (subtype_number h) = true /\ wf_bytes body /\ Writes (c_write c) body
  | None => std_has_payload (subtype_number h) = false /\ body = []
  end.
End Spec.

(** ** A-MSDUs *)
Definition ok_sub (s : AMSDUSubframe bytes) : Prop :=
  address (sf_da s) /\ address (sf_sa s) /\ wf_bytes (sf_payload s) /\ (N.of_nat (length (sf_payload s)) < 65536)%N.
(** destination, source, length (little endian, as the library has it) and payload *)
Definition enc_sub (s : AMSDUSubframe bytes) : bytes :=
  sf_da s ++ sf_sa s ++ le_bytes 2 (N.of_nat (length (sf_payload s))) ++ sf_payload s.
(** the same with the length as the standard has it *)
Definition enc_sub_std (s : AMSDUSubframe bytes) : bytes :=
  sf_da s ++ sf_sa s ++ be_bytes 2 (N.of_nat (length (sf_payload s))) ++ sf_payload s.
(** padding to a multiple of four *)
Definition pad_length (n : nat) : nat := (4 - n mod 4) mod 4.
Inductive amsdu_bytes : list (AMSDUSubframe bytes) -> bytes -> Prop :=
| amsdu_nil : amsdu_bytes [] []
| amsdu_cons : forall s l pad rest, ok_sub s -> length pad = pad_length (length (enc_sub s)) -> amsdu_bytes l rest ->
    amsdu_bytes (s :: l) (enc_sub s ++ pad ++ rest).
Definition padded_length (l : list (AMSDUSubframe bytes)) : nat :=
  list_sum (map (fun s => length (enc_sub s) + pad_length (length (enc_sub s))) l).
(** a subframe to be written [w] stands for the subframe [s] *)
Definition sub_writes {cfg : Cfg} (w : AMSDUSubframe Container) (s : AMSDUSubframe bytes) : Prop :=
  ok_sub s /\ sf_da w = sf_da s /\ sf_sa w = sf_sa s /\
  Writes (c_write (sf_payload w)) (sf_payload s) /\ c_measure (sf_payload w) = length (sf_payload s).
(** [bs] does not start with a complete subframe *)
Definition no_subframe (bs : bytes) : Prop := forall s rest, ok_sub s -> bs <> enc_sub s ++ rest.

(** ** CCMP/GCMP encapsulation *)
Definition ok_crypto (pn key : N) : Prop := (pn < 2 ^ 48 /\ key < 4)%N.
(** PN0, PN1, reserved, Ext IV and key ID, PN2 to PN5 *)
Definition enc_crypto (pn key : N) : bytes :=
  firstn 2 (le_bytes 6 pn) ++ [0; 32 + 64 * key]%N ++ skipn 2 (le_bytes 6 pn).
(** [bs] is a CCMP/GCMP header with the Ext IV bit set, a payload and a MIC *)
Definition encapsulated (mic : MicState) (bs hdr body tag : bytes) : Prop :=
  bs = hdr ++ body ++ tag /\ length hdr = 8 /\ N.testbit (nth 3 hdr 0%N) 5 = true /\
  length tag = match mic with Mic_NotPresent => 0 | Mic_Short => 8 | Mic_Long => 16 end.
