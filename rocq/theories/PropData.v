(** C29, C30, C33 to C35: data frames. *)
From Verif Require Import Base SpecBase Enums Common Crc SpecCommon Mgmt SpecMgmt MgmtFacts5
  CryptoHeader Amsdu Data SpecData DataFacts DataFacts2 DataFacts3 DataFacts4 DataFacts5 ForwardFacts SpecAmsdu AmsduFacts.

(** ** C29: data frames *)
(** Every header that is consistent ([ok_data_header]) with a payload of any kind: the bytes written
    are the standard's, in every buffer (the last conjunct of the writing part: even in one that is
    exactly large enough), and reading gives the same header and payload. *)
Theorem C29_partial : forall (cfg : Cfg) h p body fcs, ok_data_header h -> payload_ok h p body ->
  let frame := enc_frame fcs (enc_data h body) in
  Writes (wr_data (h, p) fcs) frame /\
  (fcs = true \/ (match p with Some c => body <> [] /\ WritesT (c_write c) body | None => True end) -> WritesT (wr_data (h, p) fcs) frame) /\
  (native_le = true -> pread (rd_data fcs) frame 0 = Ok (h, match p with Some _ => Some body | None => None end)).
Proof. exact @data_round_trip. Qed.
Print Assumptions C29_partial.
Theorem C29_length : forall h p body fcs, ok_data_header h ->
  match p with Some c => c_measure c = length body | None => body = [] end ->
  data_measure (h, p) fcs = length (enc_frame fcs (enc_data h body)).
Proof. exact @data_measures. Qed.
Print Assumptions C29_length.
(** Reading any bytes: what is accepted, and nothing of it is lost or invented. *)
Theorem C29_received : forall (cfg : Cfg) bs, wf_bytes bs -> native_le = true ->
  match rd_data false bs with
  | Ok ((h, p), n) => exists b0 body, ok_data_header h /\ (b0 < 256)%N /\ ((b0 / 4) mod 4 = 2)%N /\
      subtype_number h = ((b0 / 16) mod 16)%N /\
      bs = [b0; dh_flags h] ++ enc_data_header h ++ body /\ n = dh_length h /\
      p = if std_has_payload (subtype_number h) then Some body else None
  | Err _ => forall b0 b1 rest, bs = b0 :: b1 :: rest -> ((b0 / 4) mod 4 <> 2)%N \/ length bs < data_header_size b0 b1
  | Panic => False
  end.
Proof. exact @rd_data_spec. Qed.
Print Assumptions C29_received.
Theorem C29_no_panic : forall (cfg : Cfg), NoPanic (rd_data false) /\
  (forall bs, wf_bytes bs -> (rd_data true bs = Panic <-> length bs < 4)).
Proof. exact (fun cfg => conj rd_data_NP rd_data_fcs_panic). Qed.
Print Assumptions C29_no_panic.
(** On big endian machines duration and sequence control are read in the wrong order. *)
Theorem C29_big_endian_refuted : forall (cfg : Cfg), native_le = false -> exists h body frame h' p,
  ok_data_header h /\ payload_ok h (Some (c_bytes body)) body /\ Writes (wr_data (h, Some (c_bytes body)) false) frame /\
  pread (rd_data false) frame 0 = Ok (h', p) /\ dh_duration h' <> dh_duration h /\ dh_seq h' <> dh_seq h.
Proof. exact @data_big_endian. Qed.
Print Assumptions C29_big_endian_refuted.
(** The header type allows optional fields that do not fit the flags and the subtype. *)
Theorem C29_optional_refuted : forall (cfg : Cfg), native_le = true -> forall h,
  In h [dhdr Dt_QoSData 0 None None None; dhdr Dt_Data 3 None None None; dhdr Dt_Data 128 None None None;
        dhdr Dt_Data 0 (Some (addr 4)) None None; dhdr Dt_Data 0 None (Some [1; 0]%N) None; dhdr Dt_Data 0 None None (Some [1; 0; 0; 0]%N)] ->
  let body := [1; 2; 3; 4; 5; 6; 7; 8]%N in
  exists buf n h' p, wr_data (h, Some (c_bytes body)) false (repeat 0%N 64) = Ok (buf, n) /\
    pread (rd_data false) (firstn n buf) 0 = Ok (h', Some p) /\ p <> body.
Proof. exact @data_optional_fields. Qed.
Print Assumptions C29_optional_refuted.
(** The writer does not look at the subtype: it writes the payload it is given, ... *)
Theorem C29_written : forall (cfg : Cfg) h p body fcs, ok_data_header h -> match p with Some c => Writes (c_write c) body | None => body = [] end ->
  Writes (wr_data (h, p) fcs) (enc_frame fcs (enc_data h body)).
Proof. exact (fun cfg h p body fcs H P => proj1 (wr_data_any_W h p body fcs H P)). Qed.
Print Assumptions C29_written.
(** ... and if the subtype has none, the receiver drops it. *)
Theorem C29_payload_refuted : forall (cfg : Cfg), native_le = true ->
  exists buf n h', wr_data (dhdr Dt_Null 0 None None None, Some (c_bytes [1; 2]%N)) false (repeat 0%N 64) = Ok (buf, n) /\
    pread (rd_data false) (firstn n buf) 0 = Ok (h', None).
Proof. exact @data_payload_dropped. Qed.
Print Assumptions C29_payload_refuted.
Theorem C29_unknown_subtype_refuted : forall (cfg : Cfg), overflow_checks = true ->
  wr_data (dhdr (Dt_Unknown 16) 0 None None None, None) false (repeat 0%N 64) = Panic.
Proof. exact @data_unknown_subtype. Qed.
Print Assumptions C29_unknown_subtype_refuted.
(** all optional fields, with FCS *)
Example C29_ex (cfg : Cfg) :
  let h := mkDH Dt_QoSData 0x83 300 (addr 1) (addr 2) (addr 3) 0x1230 (Some (addr 4)) (Some [5; 0]%N) (Some [1; 2; 3; 4]%N) in
  ok_data_header h /\ payload_ok h (Some (c_bytes [1; 2; 3]%N)) [1; 2; 3]%N /\ data_measure (h, Some (c_bytes [1; 2; 3]%N)) true = 43 /\
  exists r, wr_data (h, Some (c_bytes [1; 2; 3]%N)) true (repeat 0%N 43) = Ok r /\ snd r = 43.
Proof.
  cbv zeta. split; [repeat split; try reflexivity; repeat constructor|]. split; [split; [reflexivity|split; [repeat constructor|apply MgmtFacts2.c_bytes_T]]|].
  split; [reflexivity|]. destruct cfg as [[] [] []]; (eexists; split; vm_compute; reflexivity).
Qed.

(** What is piggybacked on a data frame: bit 0 of the subtype (Table 9-1) means CF-Ack, bit 1 CF-Poll;
    13 is reserved, and none of the accessors holds for it. *)
Theorem C29_piggyback : forall h, ok_data_header h -> subtype_number h <> 13%N ->
  let ack := N.testbit (subtype_number h) 0 in let poll := N.testbit (subtype_number h) 1 in
  is_no_cf h = negb ack && negb poll /\ is_cf_ack h = ack && negb poll /\
  is_cf_poll h = negb ack && poll /\ is_cf_ack_poll h = ack && poll.
Proof. exact @piggyback. Qed.
Print Assumptions C29_piggyback.
Example C29_piggyback_ex : let h := dhdr Dt_QoSDataCFAck 0 None (Some [5; 0]%N) None in
  ok_data_header h /\ subtype_number h = 9%N /\ is_cf_ack h = true /\ is_no_cf (dhdr (Dt_Unknown 13) 0 None None None) = false.
Proof. cbv zeta. split; [repeat split; try reflexivity; repeat constructor|]. repeat split. Qed.

(** ** C30: address roles *)
(** [std_da], [std_sa], [std_bssid] (SpecData.v) are Table 9-30. *)
Theorem C30_partial : forall h, ok_data_header h ->
  let to := N.testbit (dh_flags h) 0 in let from := N.testbit (dh_flags h) 1 in let am := std_amsdu h in
  receiver_address h = dh_a1 h /\ transmitter_address h = dh_a2 h /\
  destination_address h = role (std_da to from am) h /\ source_address h = role (std_sa to from am) h /\
  (to && from = false -> bssid h = role (std_bssid to from am) h).
Proof. exact (fun h H => roles h (amsdu_std h H)). Qed.
Print Assumptions C30_partial.
Theorem C30_mut_partial : forall h a, ok_data_header h ->
  let to := N.testbit (dh_flags h) 0 in let from := N.testbit (dh_flags h) 1 in let am := std_amsdu h in
  (match destination_address_mut h a, std_da to from am with
   | Some h', Some f => stored f a h h' | None, None => True | _, _ => False end) /\
  (match source_address_mut h a, std_sa to from am with
   | Some h', Some f => field f h <> None /\ stored f a h h' | None, Some f => field f h = None | None, None => True | _, _ => False end) /\
  (am = false -> match bssid_mut h a, bssid h with
   | Some h', Some _ => exists f, stored f a h h' /\ bssid h = field f h | None, None => True | _, _ => False end).
Proof. exact (fun h a H => roles_mut h a (amsdu_std h H)). Qed.
Print Assumptions C30_mut_partial.
(** In A-MSDU frames the mutable BSSID is another field than the BSSID. *)
Theorem C30_mut_refuted : exists h h', ok_data_header h /\ std_amsdu h = true /\
  bssid_mut h (addr 9) = Some h' /\ bssid h' <> Some (addr 9) /\ bssid h' = bssid h.
Proof. exact bssid_mut_amsdu. Qed.
Print Assumptions C30_mut_refuted.
(** With ToDS and FromDS there is no BSSID in the header; the accessor returns the transmitter. *)
Theorem C30_bssid_refuted : exists h, ok_data_header h /\ N.testbit (dh_flags h) 0 = true /\ N.testbit (dh_flags h) 1 = true /\ std_amsdu h = false /\
  role (std_bssid true true false) h = None /\ bssid h = Some (dh_a2 h).
Proof. exact bssid_both. Qed.
Print Assumptions C30_bssid_refuted.
Example C30_ex : ok_data_header (dhdr Dt_QoSData 2 None (Some [128; 0]%N) None) /\
  std_amsdu (dhdr Dt_QoSData 2 None (Some [128; 0]%N) None) = true /\
  source_address (dhdr Dt_Data 2 None None None) = Some (addr 3) /\
  source_address (dhdr Dt_Data 3 (Some (addr 4)) None None) = Some (addr 4).
Proof. split; [repeat split; try reflexivity; repeat constructor|]. repeat split. Qed.

(** ** C33: A-MSDUs *)
(** Writing any list of subframes: [amsdu_bytes l bs] says that [bs] consists of the subframes, each
    padded to a multiple of four with bytes that are left as they were. *)
Theorem C33_write : forall (cfg : Cfg) ws l, Forall2 sub_writes ws l -> Fills (c_write (c_amsdu ws)) (padded_length l) (amsdu_bytes l).
Proof. exact @amsdu_fills. Qed.
Print Assumptions C33_write.
Theorem C33_iterate : forall (cfg : Cfg) l bs tail, amsdu_bytes l bs -> wf_bytes bs -> wf_bytes tail -> length tail < 14 ->
  amsdu_items (bs ++ tail) = Ok l.
Proof. exact @items_amsdu. Qed.
Print Assumptions C33_iterate.
(** a whole data frame *)
Theorem C33_frame : forall (cfg : Cfg) h ws l fcs, native_le = true -> ok_data_header h -> std_amsdu h = true -> Forall2 sub_writes ws l -> l <> [] ->
  N.testbit (dh_flags h) 6 = false ->
  Fills (wr_data (h, Some (c_amsdu ws)) fcs) (dh_length h + padded_length l + if fcs then 4 else 0)
        (fun frame => exists body, amsdu_bytes l body /\ pread (rd_data fcs) frame 0 = Ok (h, Some body) /\
           (forall mic, potentially_wrapped_payload (h, Some body) mic = Ok (Some (Unwrapped _ (Pl_AMSDU (Some body))))) /\
           amsdu_items body = Ok l).
Proof. exact @amsdu_frame. Qed.
Print Assumptions C33_frame.
(** Iterating over any bytes. The items are the padded subframes the string starts with. The loop
    panics exactly if the rest is one subframe whose padding is missing or incomplete (with one
    exception under [strict_end], where an empty subframe at the end is ignored). *)
Theorem C33_iterate_all_partial : forall (cfg : Cfg) bs, wf_bytes bs ->
  exists l body tail, bs = body ++ tail /\ amsdu_bytes l body /\ 
    ((no_subframe tail /\ amsdu_items bs = Ok l) \/
     (exists s pad, ok_sub s /\ tail = enc_sub s ++ pad /\ length pad < pad_length (length (enc_sub s)) /\
        amsdu_items bs = if strict_end && (length tail =? 14) then Ok l else Panic)).
Proof. exact @items_outcome_all. Qed.
Print Assumptions C33_iterate_all_partial.
(** The announced length is the length without padding. *)
Theorem C33_length_partial : forall (cfg : Cfg) ws l, Forall2 sub_writes ws l ->
  c_measure (c_amsdu ws) = list_sum (map (fun s => length (enc_sub s)) l).
Proof. exact @amsdu_measures. Qed.
Print Assumptions C33_length_partial.
Theorem C33_length_refuted : forall (cfg : Cfg), exists ws l, Forall2 sub_writes ws l /\ c_measure (c_amsdu ws) < padded_length l /\
  exists buf n, c_write (c_amsdu ws) (repeat 0%N (c_measure (c_amsdu ws))) = Ok (buf, n) /\ length buf < n.
Proof. exact @amsdu_measure_short. Qed.
Print Assumptions C33_length_refuted.
(** A frame with such a payload does not fit in a buffer of the announced length, and the writer
    panics on a buffer that ends with the payload. *)
Theorem C33_buffer_refuted : forall (cfg : Cfg), let d := (dhdr Dt_QoSData 0 None (Some [128; 0]%N) None, Some (c_amsdu [sub_of sub1])) in
  (exists e, wr_data d true (repeat 0%N (data_measure d true)) = Err e) /\ wr_data d true (repeat 0%N (data_measure d false)) = Panic.
Proof. exact @amsdu_frame_buffers. Qed.
Print Assumptions C33_buffer_refuted.
(** For every buffer: up to [reach l] (SpecAmsdu.v, the end of the last subframe without its padding) the write fails; a larger buffer that ends inside the
    last padding is reported to hold more than it has; what it holds is the A-MSDU, completed by whatever follows the buffer. *)
Theorem C33_any_buffer : forall (cfg : Cfg) ws l buf, Forall2 sub_writes ws l -> l <> [] ->
  (length buf < reach l -> exists e, c_write (c_amsdu ws) buf = Err e) /\
  (reach l + slack <= length buf -> exists buf', c_write (c_amsdu ws) buf = Ok (buf', padded_length l) /\ length buf' = length buf /\
     skipn (padded_length l) buf' = skipn (padded_length l) buf /\
     forall tail, padded_length l <= length (buf' ++ tail) -> amsdu_bytes l (firstn (padded_length l) (buf' ++ tail))).
Proof. exact @amsdu_any. Qed.
Print Assumptions C33_any_buffer.
(** A data frame with it: with a frame check sequence exactly the buffers that end inside the last padding make the writer panic; without, it reports more
    bytes than there are. *)
Theorem C33_frame_any_buffer : forall (cfg : Cfg) h ws l buf (fcs : bool), ok_data_header h -> Forall2 sub_writes ws l -> l <> [] ->
  let w := wr_data (h, Some (c_amsdu ws)) fcs buf in let n := dh_length h + padded_length l in
  (length buf < dh_length h + reach l -> exists e, w = Err e) /\
  (dh_length h + reach l + slack <= length buf -> length buf < n ->
     if fcs then w = Panic else exists buf', w = Ok (buf', n) /\ length buf' = length buf) /\
  (n + slack <= length buf -> if fcs && (length buf <? n + 4) then exists e, w = Err e else exists buf', w = Ok (buf', n + if fcs then 4 else 0)).
Proof. exact @amsdu_frame_any. Qed.
Print Assumptions C33_frame_any_buffer.
Example C33_any_buffer_ex (cfg : Cfg) : let s2 := mkSub (addr 3) (addr 4) [1; 2; 3; 4; 5; 6; 7]%N in
  Forall2 sub_writes [sub_of sub1; sub_of s2] [sub1; s2] /\ reach [sub1; s2] = 37 /\ padded_length [sub1; s2] = 40 /\
  wr_data (dhdr Dt_QoSData 0 None (Some [128; 0]%N) None, Some (c_amsdu [sub_of sub1; sub_of s2])) true (repeat 0%N 64) = Panic.
Proof.
  cbv zeta. split; [|split; [reflexivity|split; [reflexivity|destruct cfg as [[] [] []]; vm_compute; reflexivity]]].
  constructor; [apply sub_of_writes, sub1_ok|constructor; [apply sub_of_writes; repeat split; try reflexivity; repeat constructor|constructor]].
Qed.
(** The length field of the standard is big endian. *)
Theorem C33_standard_refuted : forall (cfg : Cfg), ok_sub sub1 /\ enc_sub sub1 <> enc_sub_std sub1 /\ amsdu_items (enc_sub_std sub1 ++ [0]%N) <> Ok [sub1] /\
  (exists l buf n, c_write (c_amsdu [sub_of sub1]) (repeat 0%N 20) = Ok (buf, n) /\ firstn 15 buf = l /\ l <> enc_sub_std sub1).
Proof. exact @amsdu_standard. Qed.
Print Assumptions C33_standard_refuted.
(** A last subframe without padding, which the standard prescribes. *)
Theorem C33_panic_refuted : forall (cfg : Cfg), amsdu_items (enc_sub sub1) = Panic.
Proof. exact @amsdu_unpadded. Qed.
Print Assumptions C33_panic_refuted.
Example C33_ex (cfg : Cfg) :
  let s2 := mkSub (addr 3) (addr 4) [1; 2; 3; 4; 5; 6]%N in
  Forall2 sub_writes [sub_of sub1; sub_of s2] [sub1; s2] /\ padded_length [sub1; s2] = 36 /\
  exists buf, c_write (c_amsdu [sub_of sub1; sub_of s2]) (repeat 9%N 37) = Ok (buf, 36) /\ amsdu_items (firstn 36 buf) = Ok [sub1; s2].
Proof.
  cbv zeta. split; [constructor; [apply sub_of_writes, sub1_ok|constructor; [apply sub_of_writes; repeat split; try reflexivity; repeat constructor|constructor]]|].
  split; [reflexivity|]. destruct cfg as [[] [] []]; (eexists; split; [vm_compute; reflexivity|vm_compute; reflexivity]).
Qed.

(** ** C34: CCMP/GCMP headers *)
Theorem C34_partial : forall (cfg : Cfg) pn key, ok_crypto pn key -> exists h,
  ch_new pn key = Some h /\ ch_packet_number h = pn /\ ch_key_id h = key /\
  WritesT (wr_crypto_header h) (enc_crypto pn key) /\
  exists h', Reads rd_crypto_header (enc_crypto pn key) h' /\ ch_packet_number h' = pn.
Proof. exact @crypto_round_trip. Qed.
Print Assumptions C34_partial.
(** Any eight bytes: accepted exactly if Ext IV is set. The packet number is that of the standard; the key ID is not the one in bits 6 and 7,
    but 64 times the reserved bits 0 and 1. *)
Theorem C34_received_partial : forall (cfg : Cfg) b0 b1 b2 b3 b4 b5 b6 b7 rest, wf_bytes [b0; b1; b2; b3; b4; b5; b6; b7] ->
  if N.testbit b3 5
  then exists h, rd_crypto_header ([b0; b1; b2; b3; b4; b5; b6; b7] ++ rest) = Ok (h, 8) /\
         ch_packet_number h = le_val [b0; b1; b4; b5; b6; b7] /\ ch_key_id h = (64 * (b3 mod 4))%N
  else rd_crypto_header ([b0; b1; b2; b3; b4; b5; b6; b7] ++ rest) = Err BadInput.
Proof. exact @crypto_received. Qed.
Print Assumptions C34_received_partial.
Theorem C34_short : forall (cfg : Cfg), NoPanic rd_crypto_header /\ (forall from, length from < 8 -> exists e, rd_crypto_header from = Err e).
Proof. exact (fun cfg => conj rd_crypto_header_NP rd_crypto_header_short). Qed.
Print Assumptions C34_short.
(** No key ID other than zero survives. *)
Theorem C34_key_id_refuted : forall (cfg : Cfg) pn key, ok_crypto pn key -> (key <> 0)%N -> exists h h',
  ch_new pn key = Some h /\ WritesT (wr_crypto_header h) (enc_crypto pn key) /\
  rd_crypto_header (enc_crypto pn key) = Ok (h', 8) /\ ch_key_id h = key /\ ch_key_id h' = 0%N.
Proof. exact @key_id_lost. Qed.
Print Assumptions C34_key_id_refuted.
(** Arguments are rejected only if both are out of range. *)
Theorem C34_reject_partial : forall pn key, (pn < 2 ^ 64)%N -> (key < 256)%N ->
  (ch_new pn key = None <-> (2 ^ 48 <= pn /\ 4 <= key)%N).
Proof. exact ch_new_exact. Qed.
Print Assumptions C34_reject_partial.
Theorem C34_reject_refuted : exists pn key h, (pn < 2 ^ 64 /\ key < 256)%N /\ ~ ok_crypto pn key /\ ch_new pn key = Some h /\ ch_packet_number h <> pn /\
  exists pn' key' h', (pn' < 2 ^ 64 /\ key' < 256)%N /\ ~ ok_crypto pn' key' /\ ch_new pn' key' = Some h' /\ ch_key_id h' = key' /\ (4 <= key')%N.
Proof. exact ch_new_accepts. Qed.
Print Assumptions C34_reject_refuted.
Example C34_ex (cfg : Cfg) : ok_crypto 0x010203040506 2 /\ enc_crypto 0x010203040506 2 = [6; 5; 0; 160; 4; 3; 2; 1]%N.
Proof. split; [split; reflexivity|reflexivity]. Qed.

(** ** C35: wrapped payloads *)
(** Header, payload and a zeroed MIC; the announced length is the written length. The writer panics
    if the buffer ends within the MIC. *)
Theorem C35_wrap : forall (cfg : Cfg) pn key p body mic, ok_crypto pn key -> wf_bytes body -> Writes (c_write p) body -> c_measure p = length body ->
  exists h, ch_new pn key = Some h /\
  Fills (c_write (c_crypto (mkCW h p mic))) (c_measure (c_crypto (mkCW h p mic)))
        (eq (enc_crypto pn key ++ body ++ repeat 0%N (mic_length mic))) /\
  c_measure (c_crypto (mkCW h p mic)) = 8 + length body + mic_length mic /\
  (forall buf, 8 + length body + slack <= length buf -> length buf < 8 + length body + mic_length mic ->
     c_write (c_crypto (mkCW h p mic)) buf = Panic).
Proof. exact @crypto_wrap_fills. Qed.
Print Assumptions C35_wrap.
(** wrapping, writing, reading and unwrapping a frame *)
Theorem C35_round_trip : forall (cfg : Cfg) h p body pn key mic fcs, native_le = true -> ok_data_header h -> std_has_payload (subtype_number h) = true ->
  ok_crypto pn key -> wf_bytes body -> Writes (c_write p) body -> end_ok body ->
  exists ch, ch_new pn key = Some ch /\
  Fills (wr_data (wrapped_container (crypto_wrap (h, Some p) ch mic)) fcs)
        (dh_length h + (8 + length body + mic_length mic) + if fcs then 4 else 0)
        (fun frame => exists d w, pread (rd_data fcs) frame 0 = Ok d /\ fst d = set_protected h /\
             potentially_wrapped_payload d (Some mic) = Ok (Some (CryptoWrapped _ w)) /\
             ch_packet_number (cw_header w) = pn /\ cw_mic w = mic /\
             cw_payload w = (if std_amsdu h then Pl_AMSDU (Some body) else Pl_Single body)).
Proof. exact @unwrap_round_trip. Qed.
Print Assumptions C35_round_trip.
(** the same for an A-MSDU, whose padding is whatever the buffer held *)
Theorem C35_amsdu : forall (cfg : Cfg) h ws l pn key mic fcs, native_le = true -> ok_data_header h -> std_amsdu h = true ->
  Forall2 sub_writes ws l -> l <> [] -> ok_crypto pn key ->
  Fills (wr_data (wrapped_container (crypto_wrap (h, Some (c_amsdu ws)) (mkCH (le_bytes 6 pn) key) mic)) fcs)
        (dh_length h + (8 + padded_length l + mic_length mic) + if fcs then 4 else 0)
        (fun frame => exists d body, pread (rd_data fcs) frame 0 = Ok d /\ fst d = set_protected h /\
           potentially_wrapped_payload d (Some mic) =
             Ok (Some (CryptoWrapped _ (mkCW (mkCH (le_bytes 6 pn) 0) (Pl_AMSDU (Some body)) mic))) /\
           amsdu_items body = Ok l).
Proof. exact @amsdu_wrapped_frame. Qed.
Print Assumptions C35_amsdu.
(** [set_protected], the header of a wrapped frame, changes the protected flag and nothing else *)
Theorem C35_header : forall h, ok_data_header h ->
  let h' := set_protected h in
  ok_data_header h' /\ N.testbit (dh_flags h') 6 = true /\ (forall i, i <> 6%N -> N.testbit (dh_flags h') i = N.testbit (dh_flags h) i) /\
  dh_subtype h' = dh_subtype h /\ dh_duration h' = dh_duration h /\ dh_seq h' = dh_seq h /\
  (forall f, field f h' = field f h) /\ dh_qos h' = dh_qos h /\ dh_ht h' = dh_ht h.
Proof. exact @set_protected_frame. Qed.
Print Assumptions C35_header.
(** The payload accessor on every frame: it panics exactly if the frame is protected, a MIC length
    was given and the payload is not an encapsulated one. *)
Theorem C35_received_partial : forall (cfg : Cfg) h p mic, wf_bytes p ->
  (N.testbit (dh_flags h) 6 = false -> potentially_wrapped_payload (h, Some p) mic =
     Ok (if strict_end && (length p =? 0) then None else Some (Unwrapped _ (if is_amsdu h then Pl_AMSDU (Some p) else Pl_Single p)))) /\
  (N.testbit (dh_flags h) 6 = true -> mic = None -> potentially_wrapped_payload (h, Some p) mic = Ok None) /\
  (N.testbit (dh_flags h) 6 = true -> forall m, mic = Some m ->
     (forall hdr body tag, encapsulated m p hdr body tag -> end_ok body ->
       exists ch, potentially_wrapped_payload (h, Some p) mic =
         Ok (Some (CryptoWrapped _ (mkCW ch (if is_amsdu h then Pl_AMSDU (Some body) else Pl_Single body) m))) /\
         ch_pn ch = firstn 2 hdr ++ skipn 4 hdr) /\
     ((forall hdr body tag, encapsulated m p hdr body tag -> ~ end_ok body) -> potentially_wrapped_payload (h, Some p) mic = Panic)).
Proof. exact @payload_accessor. Qed.
Print Assumptions C35_received_partial.
Theorem C35_panic_refuted : forall (cfg : Cfg), exists h, ok_data_header h /\
  potentially_wrapped_payload (h, Some [1; 2; 3]%N) (Some Mic_Short) = Panic /\
  potentially_wrapped_payload (h, Some [1; 2; 0; 0; 3; 4; 5; 6; 9; 9; 9; 9; 9; 9; 9; 9; 9; 9]%N) (Some Mic_Short) = Panic /\
  potentially_wrapped_payload (h, Some [1; 2; 0; 32; 3; 4; 5; 6; 9; 9]%N) (Some Mic_Short) = Panic.
Proof. exact @unwrap_panics. Qed.
Print Assumptions C35_panic_refuted.
Example C35_ex (cfg : Cfg) :
  ok_crypto 5 1 /\ Writes (c_write (c_bytes [1; 2; 3]%N)) [1; 2; 3]%N /\ c_measure (c_bytes [1; 2; 3]%N) = 3 /\
  encapsulated Mic_Short ([5; 0; 0; 32; 0; 0; 0; 0] ++ [1; 2; 3] ++ repeat 7 8)%N [5; 0; 0; 32; 0; 0; 0; 0]%N [1; 2; 3]%N (repeat 7 8)%N.
Proof. split; [split; reflexivity|]. split; [apply MgmtFacts2.c_bytes_T|]. split; [reflexivity|]. repeat split. Qed.
