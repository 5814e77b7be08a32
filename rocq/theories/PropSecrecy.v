(** C81: what a key frame tells those who do not have the keys. *)
From Verif Require Import Base SpecBase Bits Layouts Enums Common Mgmt SpecMgmt MgmtFacts2 SpecElementTypes Suites Rsn Data SpecData Eapol SpecEapol KeyMgmt SpecKeyMgmt
  KeyMgmtState KeyMgmtFacts6 KeyMgmtFacts8 Sha1 Aes AesFacts SpecSecrecy SecrecyFacts.

(** ** C81 *)
(** Sending encrypted key data: keys and key data enter the result (the number of bytes, the whole buffer, the error or panic) only through the wrapped key
    data and the MIC of the frame with it. Two senders of frames with the same fields for which these are the same and whose key data is equally long when padded
    give the same result. *)
Theorem C81_sent : forall (cfg : Cfg) hmac hmac' wrap wrap' unwrap unwrap', hmac_sha1 hmac -> hmac_sha1 hmac' -> key_wrap wrap unwrap -> key_wrap wrap' unwrap' ->
  forall kck kck' kek kek' h oui et (k k' : KeyFrame Container) kd kd' buffer temp,
  ok_data_header h -> length oui = 3 -> wf_bytes oui ->
  Writes (c_write (key_data k)) kd -> Writes (c_write (key_data k')) kd' -> ok_key_frame (with_data k kd) -> ok_key_frame (with_data k' kd') ->
  with_data k tt = with_data k' tt -> has_encrypted_data (key_information k) -> kd <> [] -> kd' <> [] ->
  length (pad_key_data kd) = length (pad_key_data kd') ->
  (kck = None <-> kck' = None) -> (kek = None <-> kek' = None) ->
  wrap (the_key kek) (pad_key_data kd) = wrap' (the_key kek') (pad_key_data kd') ->
  (let packet := enc_key_frame (with_data k (wrap (the_key kek) (pad_key_data kd))) in
   firstn 16 (hmac (the_key kck) packet) = firstn 16 (hmac' (the_key kck') packet)) ->
  strict_end = false \/ (length (enc_eapol h oui et (with_data k kd)) + slack <= length buffer /\ length (enc_eapol h oui et (with_data k' kd')) + slack <= length buffer) ->
  serialize_eapol hmac wrap kck kek (h, Some (mkSnap oui et k)) buffer temp = serialize_eapol hmac' wrap' kck' kek' (h, Some (mkSnap oui et k')) buffer temp.
Proof. exact @sent_same. Qed.
Print Assumptions C81_sent.
(** So a sent frame fits any other key data of the same padded length as well: there is a key wrap with which that is sent as the same frame, whatever the keys,
    the header, the other fields and the buffer. *)
Theorem C81_any_data : forall (cfg : Cfg) hmac wrap unwrap kd kd', hmac_sha1 hmac -> key_wrap wrap unwrap -> wf_bytes kd -> wf_bytes kd' -> kd <> [] -> kd' <> [] ->
  length (pad_key_data kd) = length (pad_key_data kd') ->
  exists wrap' unwrap', key_wrap wrap' unwrap' /\
  forall kck kek h oui et (k k' : KeyFrame Container) buffer temp,
  ok_data_header h -> length oui = 3 -> wf_bytes oui ->
  Writes (c_write (key_data k)) kd -> Writes (c_write (key_data k')) kd' -> ok_key_frame (with_data k kd) -> ok_key_frame (with_data k' kd') ->
  with_data k tt = with_data k' tt -> has_encrypted_data (key_information k) ->
  strict_end = false \/ (length (enc_eapol h oui et (with_data k kd)) + slack <= length buffer /\ length (enc_eapol h oui et (with_data k' kd')) + slack <= length buffer) ->
  serialize_eapol hmac wrap kck kek (h, Some (mkSnap oui et k)) buffer temp = serialize_eapol hmac wrap' kck kek (h, Some (mkSnap oui et k')) buffer temp.
Proof. exact @any_data. Qed.
Print Assumptions C81_any_data.
(** Receiving: the KEK enters the answer and the buffer afterwards only through what the key wrap makes of the received key data, and this only if the frame
    passes the check of its MIC and announces encrypted key data. *)
Theorem C81_received : forall (cfg : Cfg) hmac wrap wrap' unwrap unwrap', hmac_sha1 hmac -> key_wrap wrap unwrap -> key_wrap wrap' unwrap' ->
  forall kck kek kek' b temp temp' akm (with_fcs : bool), wf_bytes b ->
  (forall e m, to_decrypt hmac kck (frame_part with_fcs b) akm e m -> temp = temp' /\ (kek = None <-> kek' = None) /\
     let data := data_at (frame_part with_fcs b) e m in unwrap (the_key kek) data = unwrap' (the_key kek') data) ->
  deserialize_in_place hmac unwrap kck kek b temp akm with_fcs = deserialize_in_place hmac unwrap' kck kek' b temp' akm with_fcs.
Proof. exact @received_same. Qed.
Print Assumptions C81_received.
(** Any other frame, in particular one with a wrong MIC, gets an answer that does not depend on the KEK, and the buffer stays as it was. *)
Theorem C81_no_oracle_partial : forall (cfg : Cfg) hmac wrap wrap' unwrap unwrap', hmac_sha1 hmac -> key_wrap wrap unwrap -> key_wrap wrap' unwrap' ->
  forall kck kek kek' b temp temp' akm (with_fcs : bool), wf_bytes b ->
  (forall e m, ~ to_decrypt hmac kck (frame_part with_fcs b) akm e m) ->
  deserialize_in_place hmac unwrap kck kek b temp akm with_fcs = deserialize_in_place hmac unwrap' kck kek' b temp' akm with_fcs /\
  snd (deserialize_in_place hmac unwrap kck kek b temp akm with_fcs) = b.
Proof. exact @no_oracle. Qed.
Print Assumptions C81_no_oracle_partial.
(** Not so for every frame without a correct MIC: one that announces none is decrypted and answered, although the receiver has a KCK. *)
Theorem C81_oracle_refuted : forall (cfg : Cfg), ~ (forall kck kek kek' b temp akm with_fcs, key_mic_len akm = Some 16 -> wf_bytes b ->
  (forall key : bytes, kck = Some key -> ~ exists e, eapol_offset (frame_part with_fcs b) e /\ mic_correct hmac_sha1_of key (frame_part with_fcs b) e 16) ->
  kck <> None -> kek <> None -> kek' <> None ->
  deserialize_eapol hmac_sha1_of aes_unwrap kck kek b temp akm with_fcs = deserialize_eapol hmac_sha1_of aes_unwrap kck kek' b temp akm with_fcs).
Proof. exact @oracle_refuted. Qed.
Print Assumptions C81_oracle_refuted.

(** 17 and 20 bytes of key data, both 24 bytes when padded: hypotheses of [C81_any_data] *)
Example C81_ex : let k x n := mkKF 0x100a 16 1 (repeat 7%N 32) 0 0 (repeat 0%N 16) (c_bytes (repeat x n)) in
  length (pad_key_data (repeat 1%N 17)) = length (pad_key_data (repeat 2%N 20)) /\ wf_bytes (repeat 1%N 17) /\ wf_bytes (repeat 2%N 20) /\
  (forall cfg : Cfg, Writes (c_write (key_data (k 1%N 17))) (repeat 1%N 17) /\ Writes (c_write (key_data (k 2%N 20))) (repeat 2%N 20)) /\
  ok_key_frame (with_data (k 1%N 17) (repeat 1%N 17)) /\ ok_key_frame (with_data (k 2%N 20) (repeat 2%N 20)) /\
  with_data (k 1%N 17) tt = with_data (k 2%N 20) tt /\ has_encrypted_data 0x100a.
Proof. exact two_data_ok. Qed.
(** the frame of the repository's test, changed: its MIC is wrong whatever the KEK *)
Example C81_no_oracle_ex : let b := overwrite test_frame 60 [0x55]%N in
  wf_bytes b /\ (forall e m, ~ to_decrypt hmac_sha1_of (Some test_kck) (frame_part false b) Ak_Psk e m).
Proof. exact tampered_frame. Qed.
(** the frame of the repository's test itself is decrypted *)
Example C81_received_ex : to_decrypt hmac_sha1_of (Some test_kck) (frame_part false test_frame) Ak_Psk 32 16 /\ aes_unwrap test_kek (data_at test_frame 32 16) = Some test_data.
Proof. exact decrypted_frame. Qed.
