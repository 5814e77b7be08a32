(** C67 and C71: receiving and sending a key frame and the caller's buffer. The specification is at the end of SpecKeyMgmt.v; the result paired
    with the buffer afterwards is [deserialize_in_place] or [serialize_in_place] (KeyMgmtState.v). *)
From Verif Require Import Base SpecBase BaseFacts Enums Suites Mgmt Rsn Data SpecData Eapol SpecEapol KeyMgmt SpecKeyMgmt Sha1 Aes AesFacts KeyMgmtFacts6 KeyMgmtState KeyMgmtFacts8 KeyMgmtFacts9.

(** The result is that of C42 and C43, and the buffer keeps its length. *)
Theorem C67_result : forall (cfg : Cfg) hmac unwrap kck kek b temp akm with_fcs,
  fst (deserialize_in_place hmac unwrap kck kek b temp akm with_fcs) = deserialize_eapol hmac unwrap kck kek b temp akm with_fcs.
Proof. exact @in_place_result. Qed.
Print Assumptions C67_result.
Theorem C67_length : forall (cfg : Cfg) hmac wrap unwrap, hmac_sha1 hmac -> key_wrap wrap unwrap -> forall kck kek b temp akm with_fcs r b', wf_bytes b ->
  deserialize_in_place hmac unwrap kck kek b temp akm with_fcs = (r, b') -> length b' = length b.
Proof. exact @in_place_length. Qed.
Print Assumptions C67_length.
(** Refused for any reason but the last (the key frame itself is malformed): the buffer is as before, to be tried with other keys or another AKM. *)
Theorem C67_refused_partial : forall (cfg : Cfg) hmac wrap unwrap, hmac_sha1 hmac -> key_wrap wrap unwrap -> forall kck kek b temp akm with_fcs er b', wf_bytes b ->
  deserialize_in_place hmac unwrap kck kek b temp akm with_fcs = (Err er, b') -> er <> KeyFrameDeserializationFailure -> b' = b.
Proof. exact @in_place_refused. Qed.
Print Assumptions C67_refused_partial.
(** Not so for every reason: the frame has then been decrypted already. *)
Theorem C67_refused_refuted : forall (cfg : Cfg), ~ (forall hmac wrap unwrap kck kek b temp akm with_fcs er b', hmac_sha1 hmac -> key_wrap wrap unwrap -> wf_bytes b ->
  deserialize_in_place hmac unwrap kck kek b temp akm with_fcs = (Err er, b') -> b' = b).
Proof. exact @error_refuted. Qed.
Print Assumptions C67_refused_refuted.
Theorem C67_malformed : forall (cfg : Cfg) hmac wrap unwrap, hmac_sha1 hmac -> key_wrap wrap unwrap -> forall kck kek b temp akm with_fcs b', wf_bytes b ->
  deserialize_in_place hmac unwrap kck kek b temp akm with_fcs = (Err KeyFrameDeserializationFailure, b') ->
  let f := frame_part with_fcs b in
  b' = b \/ exists e m plain, unwraps hmac unwrap kck kek f akm e m plain /\ b' = decrypted_in_place f e m plain ++ fcs_part with_fcs b.
Proof. exact @in_place_late. Qed.
Print Assumptions C67_malformed.
(** Key data that is not encrypted: the buffer is as before, whatever the result. *)
Theorem C67_not_encrypted : forall (cfg : Cfg) hmac wrap unwrap, hmac_sha1 hmac -> key_wrap wrap unwrap -> forall kck kek b temp akm with_fcs r b' e, wf_bytes b ->
  deserialize_in_place hmac unwrap kck kek b temp akm with_fcs = (r, b') ->
  eapol_offset (frame_part with_fcs b) e -> ~ has_encrypted_data (info_at (frame_part with_fcs b) e) -> b' = b.
Proof. exact @in_place_not_encrypted. Qed.
Print Assumptions C67_not_encrypted.
(** Accepted with encrypted key data: the buffer holds the frame with the key data decrypted and the lengths adjusted; the FCS is left alone. *)
Theorem C67_accepted : forall (cfg : Cfg) hmac wrap unwrap, hmac_sha1 hmac -> key_wrap wrap unwrap -> forall kck kek b temp akm with_fcs k b', wf_bytes b ->
  deserialize_in_place hmac unwrap kck kek b temp akm with_fcs = (Ok k, b') -> has_encrypted_data (key_information k) ->
  let f := frame_part with_fcs b in
  exists e m, eapol_offset f e /\ length (key_mic k) = m /\ unwraps hmac unwrap kck kek f akm e m (key_data k) /\
    b' = decrypted_in_place f e m (key_data k) ++ fcs_part with_fcs b.
Proof. exact @in_place_accepted. Qed.
Print Assumptions C67_accepted.
(** So an accepted frame cannot in general be read again from the buffer ... *)
Theorem C67_twice_refuted : forall (cfg : Cfg), ~ (forall hmac wrap unwrap kck kek b temp akm with_fcs k b', hmac_sha1 hmac -> key_wrap wrap unwrap -> wf_bytes b ->
  deserialize_in_place hmac unwrap kck kek b temp akm with_fcs = (Ok k, b') ->
  deserialize_eapol hmac unwrap kck kek b' temp akm with_fcs = Ok k).
Proof. exact @twice_refuted. Qed.
Print Assumptions C67_twice_refuted.
(** ... if it has a MIC, then never with the same KCK, unless two different inputs of the MIC have the same MIC. *)
Theorem C67_again : forall (cfg : Cfg) hmac wrap unwrap, hmac_sha1 hmac -> key_wrap wrap unwrap -> forall kck kek b temp akm with_fcs k b' kek' temp' k', wf_bytes b ->
  deserialize_in_place hmac unwrap kck kek b temp akm with_fcs = (Ok k, b') -> has_encrypted_data (key_information k) -> has_mic (key_information k) ->
  deserialize_eapol hmac unwrap kck kek' b' temp' akm with_fcs = Ok k' ->
  exists key x y, kck = Some key /\ x <> y /\ firstn (length (key_mic k)) (hmac key x) = firstn (length (key_mic k)) (hmac key y).
Proof. exact @again. Qed.
Print Assumptions C67_again.

(** the frame of the repository's test: accepted once, refused afterwards *)
Example C67_ex : forall (cfg : Cfg), let b' := decrypted_in_place test_frame 32 16 test_data in
  deserialize_in_place hmac_sha1_of aes_unwrap (Some test_kck) (Some test_kek) test_frame 100 Ak_Psk false = (Ok (test_key_frame test_mic test_data), b') /\
  deserialize_in_place hmac_sha1_of aes_unwrap (Some test_kck) (Some test_kek) b' 100 Ak_Psk false = (Err InvalidMic, b').
Proof. exact @twice_witness. Qed.
Example C67_test_ex : wf_bytes test_frame /\ has_encrypted_data (key_information (test_key_frame test_mic test_data)) /\ has_mic (key_information (test_key_frame test_mic test_data)) /\
  hmac_sha1 hmac_sha1_of /\ key_wrap aes_wrap aes_unwrap.
Proof. repeat split; try apply test_frame_ok; apply hmac_sha1_ok || apply aes_key_wrap. Qed.
(** an unknown key descriptor: refused, and decrypted all the same *)
Example C67_malformed_ex : forall (cfg : Cfg),
  deserialize_in_place hmac_sha1_of aes_unwrap None (Some test_kek) odd_frame 100 Ak_Psk false =
    (Err KeyFrameDeserializationFailure, decrypted_in_place odd_frame 32 16 test_mic) /\
  decrypted_in_place odd_frame 32 16 test_mic <> odd_frame /\
  deserialize_eapol hmac_sha1_of aes_unwrap None (Some test_kek) (decrypted_in_place odd_frame 32 16 test_mic) 100 Ak_Psk false = Err TemporaryBufferToShort.
Proof. exact @odd_witness. Qed.
(** the wrong key: refused, the buffer is as before, and the right key is accepted *)
Example C67_retry_ex : forall (cfg : Cfg),
  deserialize_in_place hmac_sha1_of aes_unwrap (Some test_kek) (Some test_kek) test_frame 100 Ak_Psk false = (Err InvalidMic, test_frame).
Proof. intros [[] [] []]; vm_compute; reflexivity. Qed.
(** key data in the clear, and an FCS *)
Example C67_plain_ex : forall (cfg : Cfg), let b := overwrite (raw_frame 0 16 3 [1; 2; 3]%N) 35 [98]%N ++ [9; 9; 9; 9]%N in
  deserialize_in_place hmac_sha1_of aes_unwrap None None b 0 Ak_Psk true = (Ok (mkKF 0 0 0 (repeat 0%N 32) 0 0 (repeat 0%N 16) [1; 2; 3]%N), b).
Proof. intros [[] [] []]; vm_compute; reflexivity. Qed.

(** ** C71: sending *)
(** The result is that of C41. [torn] is what a failed first write leaves in the buffer: any bytes here; see C71_short. *)
Theorem C71_result : forall (cfg : Cfg) hmac wrap kck kek d buffer temp torn,
  serialize_eapol hmac wrap kck kek d buffer temp =
  match serialize_in_place hmac wrap kck kek d buffer temp torn with
  | (Ok n, b') => Ok (b', n) | (Err e, _) => Err e | (Panic, _) => Panic
  end.
Proof. exact @serialize_in_place_result. Qed.
Print Assumptions C71_result.
(** Too short a temporary buffer, or no key frame: the buffer is as before. *)
Theorem C71_untouched : forall (cfg : Cfg) hmac wrap kck kek d buffer temp torn, temp < 24 \/ snd d = None ->
  snd (serialize_in_place hmac wrap kck kek d buffer temp torn) = buffer.
Proof. exact @untouched. Qed.
Print Assumptions C71_untouched.
(** The whole buffer afterwards, whatever the outcome. *)
Theorem C71_after : forall (cfg : Cfg) hmac wrap unwrap, hmac_sha1 hmac -> key_wrap wrap unwrap ->
  forall kck kek h oui et (k : KeyFrame Container) kd buffer temp torn,
  ok_data_header h -> length oui = 3 -> wf_bytes oui -> Writes (c_write (key_data k)) kd -> ok_key_frame (with_data k kd) ->
  length (enc_eapol h oui et (with_data k kd)) + slack <= length buffer ->
  snd (serialize_in_place hmac wrap kck kek (h, Some (mkSnap oui et k)) buffer temp torn) = buffer_after hmac wrap kck kek h oui et k kd buffer temp.
Proof. exact @after. Qed.
Print Assumptions C71_after.
(** Nothing behind the frame is touched, whatever the outcome. *)
Theorem C71_beyond : forall (cfg : Cfg) hmac wrap unwrap, hmac_sha1 hmac -> key_wrap wrap unwrap ->
  forall kck kek h oui et (k : KeyFrame Container) kd buffer temp torn,
  ok_data_header h -> length oui = 3 -> wf_bytes oui -> Writes (c_write (key_data k)) kd -> ok_key_frame (with_data k kd) ->
  length (enc_eapol h oui et (with_data k kd)) + slack <= length buffer ->
  let b' := snd (serialize_in_place hmac wrap kck kek (h, Some (mkSnap oui et k)) buffer temp torn) in
  length b' = length buffer /\ skipn (sent_length h oui et k kd) b' = skipn (sent_length h oui et k kd) buffer.
Proof. exact @beyond. Qed.
Print Assumptions C71_beyond.
(** Key data that was to be encrypted, but could not be, is left in the buffer in the clear, ... *)
Theorem C71_clear : forall (cfg : Cfg) hmac wrap unwrap, hmac_sha1 hmac -> key_wrap wrap unwrap ->
  forall kck kek h oui et (k : KeyFrame Container) kd buffer temp torn,
  ok_data_header h -> length oui = 3 -> wf_bytes oui -> Writes (c_write (key_data k)) kd -> ok_key_frame (with_data k kd) ->
  length (enc_eapol h oui et (with_data k kd)) + slack <= length buffer ->
  has_encrypted_data (key_information k) -> kd <> [] -> 24 <= temp ->
  kek = None \/ temp < length (pad_key_data kd) + 8 \/ length buffer < sent_length h oui et k kd ->
  firstn (length (enc_eapol h oui et (with_data k kd))) (snd (serialize_in_place hmac wrap kck kek (h, Some (mkSnap oui et k)) buffer temp torn)) =
  enc_eapol h oui et (with_data k kd).
Proof. exact @left_clear. Qed.
Print Assumptions C71_clear.
(** ... so it is not true that a refused frame is not left there in the clear. *)
Theorem C71_clear_refuted : forall (cfg : Cfg), ~ (forall hmac wrap unwrap kck kek h oui et (k : KeyFrame Container) kd buffer temp torn e b', hmac_sha1 hmac -> key_wrap wrap unwrap ->
  ok_data_header h -> length oui = 3 -> wf_bytes oui -> Writes (c_write (key_data k)) kd -> ok_key_frame (with_data k kd) ->
  has_encrypted_data (key_information k) -> kd <> [] ->
  serialize_in_place hmac wrap kck kek (h, Some (mkSnap oui et k)) buffer temp torn = (Err e, b') ->
  firstn (length (enc_eapol h oui et (with_data k kd))) b' <> enc_eapol h oui et (with_data k kd)).
Proof. exact @clear_refuted. Qed.
Print Assumptions C71_clear_refuted.
(** 17 bytes of key data to be encrypted, without a key: the frame with padding is left in the buffer *)
Example C71_ex : forall (cfg : Cfg) torn, native_le = true ->
  serialize_in_place hmac_sha1_of aes_wrap None None (small_frame 0x100a (repeat 0%N 16) (repeat 1%N 17)) (repeat 0%N 300) 100 torn =
  (Err MissingKey, left_frame ++ [0xdd; 0; 0; 0; 0; 0; 0]%N ++ repeat 0%N (293 - length left_frame)).
Proof. exact @left_witness. Qed.
Example C71_hypotheses_ex : ok_data_header test_header /\ wf_bytes [0; 0; 0]%N /\
  (forall cfg : Cfg, Writes (c_write (c_bytes (repeat 1%N 17))) (repeat 1%N 17)) /\
  ok_key_frame (mkKF 0x100a 16 1 (repeat 7%N 32) 0 0 (repeat 0%N 16) (repeat 1%N 17)) /\ has_encrypted_data 0x100a /\ length left_frame = 148 /\
  sent_length test_header [0; 0; 0]%N 0x888e (mkKF 0x100a 16 1 (repeat 7%N 32) 0 0 (repeat 0%N 16) tt) (repeat 1%N 17) = 163.
Proof. exact send_example. Qed.
