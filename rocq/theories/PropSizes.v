(** C58: the size that is reported along with a value that was read. *)
From Verif Require Import Base SpecBase Enums Common Crc Mgmt SpecMgmt Control CryptoHeader Amsdu Data SpecData Rsn Eapol SpecSizes SizesFacts.

(** Management frames that end in elements: everything but the frame check sequence. *)
Theorem C58_mgmt_partial : forall (cfg : Cfg),
  CountsAll Beacon /\ CountsAll ProbeResponse /\ CountsAll Authentication /\ CountsAll AssociationRequest /\
  CountsAll AssociationResponse /\ CountsAll Deauthentication /\ CountsAll Disassociation /\ CountsAll ProbeRequest /\
  CountsAll MeshPeeringOpen /\ CountsAll MeshPeeringConfirm /\ CountsAll MeshPeeringClose.
Proof. exact @all_counted. Qed.
Print Assumptions C58_mgmt_partial.
(** So with a frame check sequence, a second read at the new offset starts at the checksum. *)
Theorem C58_fcs_refuted : forall (cfg : Cfg), exists bs x n,
  wf_bytes bs /\ rd_mgmt Beacon true bs = Ok (x, n) /\ n < length bs.
Proof. exact @fcs_not_counted. Qed.
Print Assumptions C58_fcs_refuted.
(** Action frames: the header and the category (and the OUI), but not the payload. *)
Theorem C58_action_partial : forall (cfg : Cfg),
  CountsFixed RawAction 1 ra_payload /\ CountsFixed RawVendorSpecificAction (1 + 3) va_payload.
Proof. exact @action_sizes. Qed.
Print Assumptions C58_action_partial.
Theorem C58_action_refuted : forall (cfg : Cfg), exists bs x n,
  wf_bytes bs /\ rd_mgmt RawAction false bs = Ok (x, n) /\ n < length bs.
Proof. exact @action_not_counted. Qed.
Print Assumptions C58_action_refuted.
(** Data frames: the header, but not the payload. *)
Theorem C58_data_partial : forall (cfg : Cfg) fcs bs h p n, rd_data fcs bs = Ok ((h, p), n) ->
  n = dh_length h /\ (forall b, p = Some b -> n + length b + fcs_size fcs = length bs).
Proof. exact @rd_data_size. Qed.
Print Assumptions C58_data_partial.
Theorem C58_data_refuted : forall (cfg : Cfg), exists bs x n, wf_bytes bs /\ rd_data false bs = Ok (x, n) /\ n < length bs.
Proof. exact @data_not_counted. Qed.
Print Assumptions C58_data_refuted.
(** A-MSDU subframes: addresses, length, payload and padding to a multiple of four, even if the
    padding is not there. *)
Theorem C58_subframe_partial : forall (cfg : Cfg) bs s n, rd_subframe bs = Ok (s, n) ->
  n = round4 (14 + length (sf_payload s)) /\ 14 + length (sf_payload s) <= length bs.
Proof. exact @rd_subframe_size. Qed.
Print Assumptions C58_subframe_partial.
Theorem C58_subframe_refuted : forall (cfg : Cfg), exists bs s n,
  wf_bytes bs /\ rd_subframe bs = Ok (s, n) /\ length bs < n.
Proof. exact @subframe_beyond. Qed.
Print Assumptions C58_subframe_refuted.
(** Control frames (behind the frame control field), cipher headers, encapsulated payloads and EAPOL
    key frames. *)
Theorem C58_control : forall (cfg : Cfg) s flags bs c n, rd_ctrl s flags bs = Ok (c, n) ->
  n = match c with C_RTS _ _ _ _ => 2 + 6 + 6 | C_CTS _ _ _ | C_Ack _ _ _ => 2 + 6 | C_Unknown _ _ body => length body end /\
  (forall t f body, c = C_Unknown t f body -> body = bs) /\ n <= length bs.
Proof. exact @rd_ctrl_size. Qed.
Print Assumptions C58_control.
Theorem C58_crypto_header : forall (cfg : Cfg) bs h n, rd_crypto_header bs = Ok (h, n) -> n = 8 /\ 8 <= length bs.
Proof. exact @rd_crypto_header_size. Qed.
Print Assumptions C58_crypto_header.
Theorem C58_encapsulated : forall (cfg : Cfg) (A : Type) mic (r : reader A) bs w n,
  rd_wrapped mic r bs = Ok (w, n) -> n = length bs.
Proof. exact @rd_wrapped_size. Qed.
Print Assumptions C58_encapsulated.
Theorem C58_key_frame : forall (cfg : Cfg) akm bs (k : KeyFrame bytes) n, wf_bytes bs -> rd_key_frame akm bs = Ok (k, n) ->
  n = 81 + length (key_mic k) + 2 + length (key_data k) /\ n <= length bs.
Proof. exact @rd_key_frame_size. Qed.
Print Assumptions C58_key_frame.
(** a deauthentication frame, an RTS frame, a data frame with a payload of three bytes and a subframe
    with one byte are read *)
Example C58_ex (cfg : Cfg) :
  (exists x, rd_mgmt Deauthentication false (hdr24 192 ++ [3; 0; 221; 1; 7]%N) = Ok (x, 29)) /\
  (exists x, rd_ctrl Ct_RTS 0 (repeat 7%N 20) = Ok (x, 14)) /\
  (exists x, rd_data false (hdr24 8 ++ [1; 2; 3]%N) = Ok (x, 24)) /\
  (exists x, rd_subframe (repeat 0%N 12 ++ [1; 0; 7; 9]%N) = Ok (x, 16)).
Proof.
  repeat split; eexists; destruct cfg as [[] [] []]; vm_compute; reflexivity.
Qed.
