(** C56, C57: the stand-alone key wrap and the mapping of passphrases. *)
From Verif Require Import Base SpecBase BaseFacts Suites Rsn Data SpecData Eapol SpecEapol KeyMgmt SpecKeyMgmt KeyMgmtFacts KeyMgmtFacts6
  Sha1 Aes AesFacts AesPad KeyWrap SpecKeyWrap KeyWrapFacts.

(** ** C56 *)
(** The function succeeds exactly if the output has the length of the wrapped data, and unwrapping as in RFC 5649 gives
    the data again. [block_cipher] (AesFacts.v): decryption undoes encryption, blocks have 16 bytes. *)
Theorem C56_wrap : forall enc dec kek data n, block_cipher enc dec -> 0 < length data -> (N.of_nat (length data) < 2 ^ 32)%N ->
  exists out, length out = 8 * ((length data + 7) / 8) + 8 /\
  wrap_eapol_key_data (wrap_pad_of enc) kek data n = (if n =? length out then Ok out else Err InvalidOutputLength) /\
  (wf_bytes data -> unwrap_pad_of dec kek out = Some data).
Proof. exact @wrap_eapol_spec. Qed.
Print Assumptions C56_wrap.
Theorem C56_aes : block_cipher aes_enc aes_dec.
Proof. exact @aes_block_cipher. Qed.
Print Assumptions C56_aes.
(** The wrapped data is not what key frames carry (IEEE 802.11-2020, 12.7.2: NIST AES key wrap, that is RFC 3394): unwrapping
    it like the receiver fails, for all keys and data of more than eight bytes ... *)
Theorem C56_unwrap_refuted : forall enc dec kek data n out, block_cipher enc dec -> wf_bytes data -> 8 < length data ->
  wrap_eapol_key_data (wrap_pad_of enc) kek data n = Ok out -> unwrap_of dec kek out = None.
Proof. exact @wrap_eapol_refused. Qed.
Print Assumptions C56_unwrap_refuted.
(** ... so no frame with it as encrypted key data is accepted. [b'] is the frame without FCS, [e] the offset of the
    EAPOL packet, [m] the length of the MIC. *)
Theorem C56_received_refuted : forall enc dec (cfg : Cfg) hmac kck kek data n out b temp akm (with_fcs : bool) e m,
  block_cipher enc dec -> hmac_sha1 hmac -> wf_bytes data -> 8 < length data ->
  wrap_eapol_key_data (wrap_pad_of enc) kek data n = Ok out -> wf_bytes b ->
  let b' := if with_fcs then firstn (length b - 4) b else b in
  eapol_offset b' e -> key_mic_len akm = Some m -> has_encrypted_data (info_at b' e) ->
  between_bytes b' (e + 81 + m + 2) (e + 81 + m + 2 + data_length_at b' e m) = out ->
  forall k, deserialize_eapol hmac (unwrap_of dec) kck (Some kek) b temp akm with_fcs <> Ok k.
Proof. exact @wrap_eapol_never. Qed.
Print Assumptions C56_received_refuted.
(** a frame with 16 bytes of key data, which is accepted if they are wrapped as in RFC 3394 *)
Example C56_ex : let data := be_bytes 16 0x00112233445566778899aabbccddeeff in
  let frame wrapped := raw_frame 0x1000 16 24 wrapped in
  let out := aes_wrap_pad test_kek data in let b := frame out in
  let cfg := {| strict_end := false; native_le := true; overflow_checks := true |} in
  wrap_eapol_key_data aes_wrap_pad test_kek data 24 = Ok out /\ wf_bytes data /\
  eapol_offset b 32 /\ key_mic_len Ak_Psk = Some 16 /\ has_encrypted_data (info_at b 32) /\
  between_bytes b (32 + 81 + 16 + 2) (32 + 81 + 16 + 2 + data_length_at b 32 16) = out /\
  (forall kck, @deserialize_eapol cfg hmac_sha1_of aes_unwrap kck (Some test_kek) b 100 Ak_Psk false = Err TemporaryBufferToShort) /\
  (forall kck, exists k,
     @deserialize_eapol cfg hmac_sha1_of aes_unwrap kck (Some test_kek) (frame (aes_wrap test_kek data)) 100 Ak_Psk false = Ok k /\ key_data k = data).
Proof.
  cbn zeta. change aes_wrap_pad with (wrap_pad_of aes_enc).
  split; [vm_compute; reflexivity|]. split; [apply wf_bytesb_spec; vm_compute; reflexivity|].
  set (out := wrap_pad_of _ _ _). assert (E : out = be_bytes 24 0x56f73f0a63c3ae2e355b1346df2d3418c7f236eb4428d6ca) by (vm_compute; reflexivity). rewrite E. clear E out.
  split; [exists 24; split; [vm_compute; reflexivity|]; split; [reflexivity|]; split; [vm_compute; lia|vm_compute; reflexivity]|].
  split; [reflexivity|]. split; [vm_compute; reflexivity|]. split; [vm_compute; reflexivity|]. split.
  - intros kck. vm_compute. reflexivity.
  - intros kck. eexists. split; vm_compute; reflexivity.
Qed.

(** ** C57 *)
(** The key is the front of the PBKDF2 stream with 4096 iterations. *)
Theorem C57_psk : forall hmac passphrase ssid n blocks, hmac_sha1 hmac -> n <= 20 * blocks ->
  map_passphrase_to_psk (pbkdf2_of hmac) passphrase ssid n = firstn n (psk_stream hmac passphrase ssid blocks).
Proof. exact @psk_spec. Qed.
Print Assumptions C57_psk.
Theorem C57_length : forall hmac passphrase ssid n, hmac_sha1 hmac ->
  length (map_passphrase_to_psk (pbkdf2_of hmac) passphrase ssid n) = n.
Proof. exact @psk_length. Qed.
Print Assumptions C57_length.
Theorem C57_prefix : forall hmac passphrase ssid m n, hmac_sha1 hmac -> m <= n ->
  map_passphrase_to_psk (pbkdf2_of hmac) passphrase ssid m = firstn m (map_passphrase_to_psk (pbkdf2_of hmac) passphrase ssid n).
Proof. exact @psk_prefix. Qed.
Print Assumptions C57_prefix.
Example C57_ex : hmac_sha1 hmac_sha1_of /\ 32 <= 20 * 2.
Proof. split; [exact hmac_sha1_ok|lia]. Qed.
