(** C37: EAPOL key frames. The specification is SpecEapol.v. *)
From Verif Require Import Base SpecBase BaseFacts Enums Suites Mgmt SpecMgmt MgmtFacts2 MgmtFacts5 SpecElementTypes Data SpecData DataFacts5 Rsn Eapol SpecEapol EapolFacts KeyMgmt SpecKeyMgmt ReceiveFacts.

(** What is written is the EAPOL-Key frame of the standard, with the lengths of the written key data and of the
    whole body in the two length fields (modulo 2^16). [kd] are the bytes of the key data. *)
Theorem C37_format : forall (cfg : Cfg) (k : KeyFrame Container) kd,
  Writes (c_write (key_data k)) kd -> Writes (wr_key_frame k) (enc_key_frame (with_data k kd)).
Proof. exact @wr_key_frame_W. Qed.
Print Assumptions C37_format.
(** The announced length is the written length. *)
Theorem C37_length : forall (k : KeyFrame Container) kd, length (key_nonce k) = 32 -> c_measure (key_data k) = length kd ->
  kf_measure k = length (enc_key_frame (with_data k kd)).
Proof. exact @kf_measure_spec. Qed.
Print Assumptions C37_length.
(** Reading it with an AKM suite of that MIC length gives the frame back, whatever follows it. *)
Theorem C37_read_partial : forall (cfg : Cfg) akm k rest, ok_key_frame k -> key_mic_len akm = Some (length (key_mic k)) ->
  strict_end = false \/ key_data k <> [] ->
  rd_key_frame akm (enc_key_frame k ++ rest) = Ok (k, length (enc_key_frame k)).
Proof. exact @rd_key_frame_R. Qed.
Print Assumptions C37_read_partial.
(** With a scroll that refuses empty reads at the end of a buffer, frames without key data are refused. *)
Theorem C37_strict_end_refuted : forall (cfg : Cfg) akm k rest, strict_end = true -> ok_key_frame k ->
  key_mic_len akm = Some (length (key_mic k)) -> key_data k = [] ->
  rd_key_frame akm (enc_key_frame k ++ rest) = Err BadOffset.
Proof. exact @rd_key_frame_strict. Qed.
Print Assumptions C37_strict_end_refuted.
(** [ok_key_frame] excludes frames longer than the 16 bit length fields. 65536 bytes of key data are written without an
    error, but announced as none, and read back as none. *)
Theorem C37_length_field_refuted : forall (cfg : Cfg) akm (k : KeyFrame bytes),
  N.of_nat (length (key_data k)) = 65536%N -> ok_key_frame (with_data k []) -> key_mic_len akm = Some (length (key_mic k)) ->
  strict_end = false ->
  Writes (wr_key_frame (with_data k (c_bytes (key_data k)))) (enc_key_frame k) /\
  between_bytes (enc_key_frame k) (81 + length (key_mic k)) (81 + length (key_mic k) + 2) = [0; 0]%N /\
  exists n, rd_key_frame akm (enc_key_frame k) = Ok (with_data k [], n).
Proof. exact @too_long. Qed.
Print Assumptions C37_length_field_refuted.
(** Every accepted frame is one: version, reserved bytes and bytes behind the key data are free, everything else is
    the encoding of the result, which lies inside the announced length. *)
Theorem C37_received : forall (cfg : Cfg) akm bs k n, wf_bytes bs -> rd_key_frame akm bs = Ok (k, n) ->
  exists version len reserved tail, bs = enc_received version len reserved k ++ tail /\ length reserved = 8 /\ (len < 65536)%N /\
    n = length (enc_received version len reserved k) /\ n <= N.to_nat len + 4 <= length bs /\
    ok_key_frame k /\ key_mic_len akm = Some (length (key_mic k)).
Proof. exact @rd_key_frame_inv. Qed.
Print Assumptions C37_received.
(** Exactly which byte strings are accepted, and as what. *)
Theorem C37_read_exact : forall (cfg : Cfg) akm p k n, rd_key_frame akm p = Ok (k, n) <->
  exists m, key_mic_len akm = Some m /\ key_frame_complete strict_end m p = true /\ k = key_frame_in m p /\ n = 83 + m + data_length_at p 0 m.
Proof. exact @read_exact. Qed.
Print Assumptions C37_read_exact.
Theorem C37_no_panic : forall (cfg : Cfg) akm, NoPanic (rd_key_frame akm).
Proof. exact @rd_key_frame_NP. Qed.
Print Assumptions C37_no_panic.
(** A data frame with LLC/SNAP header that carries a key frame. *)
Theorem C37_data_frame : forall (cfg : Cfg) h oui et (k : KeyFrame Container) kd, ok_data_header h ->
  length oui = 3 -> wf_bytes oui -> ok_key_frame (with_data k kd) -> Writes (c_write (key_data k)) kd ->
  Writes (wr_data (eapol_data (h, Some (mkSnap oui et k))) false) (enc_eapol h oui et (with_data k kd)).
Proof. exact @eapol_data_W. Qed.
Print Assumptions C37_data_frame.
(** The ranges point at MIC, length of the key data and key data in the frame. *)
Theorem C37_ranges : forall h oui et (k : KeyFrame Container) kd, ok_data_header h -> length oui = 3 -> length (key_nonce k) = 32 ->
  let d := (h, Some (mkSnap oui et k)) in let frame := enc_eapol h oui et (with_data k kd) in
  (exists a b, eapol_mic_range d = Some (a, b) /\ b <= length frame /\ between_bytes frame a b = key_mic k) /\
  (exists a b, eapol_key_data_length_range d = Some (a, b) /\ b <= length frame /\ between_bytes frame a b = be_bytes 2 (N.of_nat (length kd))) /\
  (exists a, eapol_key_data_range d = Some a /\ skipn a frame = kd).
Proof. exact @eapol_ranges. Qed.
Print Assumptions C37_ranges.

Definition ex_key_frame : KeyFrame bytes :=
  mkKF 0x13ca 16 2 (repeat 7%N 32) 5 9 (repeat 0%N 16) [0xdd; 0x16; 1; 2]%N.
Example C37_ex : ok_key_frame ex_key_frame /\ key_mic_len Ak_Psk = Some (length (key_mic ex_key_frame)) /\
  ok_data_header (dhdr Dt_Data 2 None None None) /\ std_has_payload (subtype_number (dhdr Dt_Data 2 None None None)) = true.
Proof. exact ex_key_frame_ok. Qed.
Example C37_read_ex : forall strict, let p := enc_key_frame ex_key_frame in
  key_frame_complete strict 16 p = true /\ key_frame_in 16 p = ex_key_frame /\ key_frame_complete strict 16 (removelast p) = false.
Proof. intros []; vm_compute; auto. Qed.
Example C37_ex_bytes : forall (cfg : Cfg), wr_key_frame (with_data ex_key_frame (c_bytes [0xdd; 0x16; 1; 2]%N)) (repeat 0xff%N 104) =
  Ok ([2; 3; 0; 99; 2; 0x13; 0xca; 0; 16; 0; 0; 0; 0; 0; 0; 0; 2]%N ++ repeat 7%N 32 ++ repeat 0%N 15 ++ [5]%N ++ repeat 0%N 7 ++ [9]%N ++
      repeat 0%N 8 ++ repeat 0%N 16 ++ [0; 4; 0xdd; 0x16; 1; 2]%N ++ [0xff]%N, 103).
Proof. intros [[] [] []]; vm_compute; reflexivity. Qed.
(** hypotheses of [C37_length_field_refuted] *)
Example C37_too_long_ex : exists k : KeyFrame bytes, N.of_nat (length (key_data k)) = 65536%N /\ ok_key_frame (with_data k ([] : bytes)) /\
  key_mic_len Ak_Psk = Some (length (key_mic k)).
Proof. exact too_long_ex. Qed.
