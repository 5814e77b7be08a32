(** C38 to C43: key management. The specification is SpecKeyMgmt.v. The theorems hold for every function in the place
    of HMAC-SHA-1 and of AES key wrap with the properties named there; SHA-1 (Sha1.v) and AES key wrap (Aes.v) have them. *)
From Verif Require Import Base SpecBase BaseFacts Bits Enums Suites Mgmt SpecMgmt MgmtFacts2 Data SpecData Rsn Eapol SpecEapol
  KeyMgmt SpecKeyMgmt KeyMgmtFacts Sha1 Aes AesFacts KeyMgmtFacts6 KeyMgmtFacts7 TamperFacts ReceiveFacts SpecArrival ArrivalFacts ReplayFacts2.

Theorem C38_hmac_sha1 : hmac_sha1 hmac_sha1_of.
Proof. exact @hmac_sha1_ok. Qed.
Print Assumptions C38_hmac_sha1.
Theorem C41_aes_key_wrap : key_wrap aes_wrap aes_unwrap.
Proof. exact @aes_key_wrap. Qed.
Print Assumptions C41_aes_key_wrap.

(** ** C38 *)
(** The output is the front of the stream of blocks with the counters 0, 1, 2, ... *)
Theorem C38_prf : forall hmac key label data n blocks, hmac_sha1 hmac -> n <= 20 * blocks -> blocks <= 256 ->
  prf_iter hmac key label data n = firstn n (prf_stream hmac key (label_bytes label) (concat data) blocks).
Proof. exact @prf_iter_std. Qed.
Print Assumptions C38_prf.
Theorem C38_length : forall hmac key label data n, hmac_sha1 hmac -> length (prf_iter hmac key label data n) = n.
Proof. exact @prf_iter_length. Qed.
Print Assumptions C38_length.
Theorem C38_prefix : forall hmac key label data m n, hmac_sha1 hmac -> m <= n ->
  prf_iter hmac key label data m = firstn m (prf_iter hmac key label data n).
Proof. exact @prf_iter_prefix. Qed.
Print Assumptions C38_prefix.
(** Only the concatenation of the data counts; [prf] takes it in one piece. *)
Theorem C38_pieces : forall hmac key label data data' n, concat data = concat data' ->
  prf_iter hmac key label data n = prf_iter hmac key label data' n.
Proof. exact @prf_chunked. Qed.
Print Assumptions C38_pieces.
Theorem C38_one_piece : forall hmac key label data n, prf hmac key label data n = prf_iter hmac key label [data] n.
Proof. exact @prf_one. Qed.
Print Assumptions C38_one_piece.
(** The counter is one byte: after 256 blocks the output repeats. *)
Theorem C38_counter_refuted : forall hmac key label data n, hmac_sha1 hmac ->
  skipn (20 * 256) (prf_iter hmac key label data (20 * 256 + n)) = prf_iter hmac key label data n.
Proof. exact @prf_iter_repeats. Qed.
Print Assumptions C38_counter_refuted.
Theorem C38_pmkid : forall hmac key aa spa, hmac_sha1 hmac ->
  @generate_pmkid unit hmac key aa spa = Ok (firstn 16 (hmac key (pmk_name ++ aa ++ spa))).
Proof. exact @pmkid_spec. Qed.
Print Assumptions C38_pmkid.
(** test vectors of /repo/tests/crypto/key_mgmt.rs *)
Example C38_ex1 : prf hmac_sha1_of (repeat 0x0b%N 20) "prefix" (label_bytes "Hi There") 24 =
  be_bytes 24 0xbcd4c650b30b9684951829e0d75f9d54b862175ed9f00606.
Proof. vm_compute. reflexivity. Qed.
Example C38_ex2 : prf hmac_sha1_of (label_bytes "Jefe") "prefix-2" (label_bytes "what do ya want for nothing?") 32 =
  be_bytes 32 0x47c4908e30c947521ad20be9053450ecbea23d3aa604b77326d8b3825ff7475c.
Proof. vm_compute. reflexivity. Qed.
Example C38_ex3 : prf hmac_sha1_of (repeat 0xaa%N 80) "prefix-3" (label_bytes "Test Using Larger Than Block-Size Key - Hash Key First") 48 =
  be_bytes 48 0x0ab6c33ccf70d0d736f4b04c8a7373255511abc5073713163bd0b8c9eeb7e1956fa066820a73ddee3f6d3bd407e0682a.
Proof. vm_compute. reflexivity. Qed.
Example C38_ex4 : prf hmac_sha1_of (repeat 0x0b%N 20) "prefix-4" (label_bytes "Hi There Again") 64 =
  be_bytes 64 0x248cfbc532ab38ffa483c8a2e40bf170eb542a2e0916d7bf6d97da2c4c5ca877736c53a65b03fa4b3745ce7613f6ad68e0e4a798b7cf691c96176fd634a59a49.
Proof. vm_compute. reflexivity. Qed.

(** ** C39 *)
Theorem C39_symmetric : forall hmac pmk aa spa anonce snonce n,
  derive_ptk hmac pmk aa spa anonce snonce n = derive_ptk hmac pmk spa aa snonce anonce n.
Proof. exact @derive_ptk_sym. Qed.
Print Assumptions C39_symmetric.
Theorem C39_symmetric_addresses : forall hmac pmk aa spa anonce snonce n,
  derive_ptk hmac pmk aa spa anonce snonce n = derive_ptk hmac pmk spa aa anonce snonce n.
Proof. exact @derive_ptk_sym_addresses. Qed.
Print Assumptions C39_symmetric_addresses.
Theorem C39_symmetric_nonces : forall hmac pmk aa spa anonce snonce n,
  derive_ptk hmac pmk aa spa anonce snonce n = derive_ptk hmac pmk aa spa snonce anonce n.
Proof. exact @derive_ptk_sym_nonces. Qed.
Print Assumptions C39_symmetric_nonces.
(** It is the PTK of the standard. *)
Theorem C39_ptk : forall hmac pmk aa spa anonce snonce n blocks, hmac_sha1 hmac ->
  wf_bytes aa -> wf_bytes spa -> length aa = 6 -> length spa = 6 ->
  wf_bytes anonce -> wf_bytes snonce -> length anonce = 32 -> length snonce = 32 ->
  n <= 20 * blocks -> blocks <= 256 ->
  exists a_lo a_hi n_lo n_hi, min_max aa spa a_lo a_hi /\ min_max anonce snonce n_lo n_hi /\
    derive_ptk hmac pmk aa spa anonce snonce n = firstn n (prf_stream hmac pmk pairwise_key_expansion (a_lo ++ a_hi ++ n_lo ++ n_hi) blocks).
Proof. exact @derive_ptk_spec. Qed.
Print Assumptions C39_ptk.
(** test vector of /repo/tests/crypto/key_mgmt.rs *)
Example C39_ex : derive_ptk hmac_sha1_of (be_bytes 32 0xee51883793a6f68e9615fe73c80a3aa6f2dd0ea537bce627b929183cc6e57925)
    (be_bytes 6 0x00146c7e4080) (be_bytes 6 0x001346fe320c)
    (be_bytes 32 0x225854b0444de3af06d1492b852984f04cf6274c0e3218b8681756864db7a055)
    (be_bytes 32 0x59168bc3a5df18d71efb6423f340088dab9e1ba2bbc58659e07b3764b0de8570) 80 =
  be_bytes 80 0xea0e404633c802450302868ccaa749de5cba5abcb267e2de1d5e21e57accd5079b31e9ff220e132ae4f6ed9ef1acc88545825fc32ee55961395ae43734d6c10798ef5afe42c07426471868a577d4d17e.
Proof. vm_compute. reflexivity. Qed.

(** ** C40 *)
Theorem C40_partition : forall ptk akm cipher kck kek tk, partition_ptk ptk akm cipher = Some (kck, kek, tk) <->
  kck_len akm = Some (length kck) /\ kek_len akm = Some (length kek) /\ tk_len cipher = Some (length tk) /\
  exists rest, ptk = kck ++ kek ++ tk ++ rest.
Proof. exact @partition_some. Qed.
Print Assumptions C40_partition.
Theorem C40_refused : forall ptk akm cipher, partition_ptk ptk akm cipher = None <->
  kck_len akm = None \/ kek_len akm = None \/ tk_len cipher = None \/
  exists a b c, kck_len akm = Some a /\ kek_len akm = Some b /\ tk_len cipher = Some c /\ length ptk < a + b + c.
Proof. exact @partition_none. Qed.
Print Assumptions C40_refused.
Example C40_ex : partition_ptk (repeat 1%N 16 ++ repeat 2%N 16 ++ repeat 3%N 16 ++ [4]%N) Ak_Psk Cs_Ccmp128 =
  Some (repeat 1%N 16, repeat 2%N 16, repeat 3%N 16).
Proof. reflexivity. Qed.
Example C40_short_ex : partition_ptk (repeat 1%N 47) Ak_Psk Cs_Ccmp128 = None.
Proof. reflexivity. Qed.

(** ** C41 *)
(** What is sent: the key data padded and wrapped if the key information says so, then the MIC if it says so, over the
    frame with the MIC field of the caller. [kd] are the bytes of the key data, [slack] is spare room in the buffer
    ([slack] is one if scroll refuses empty writes at the end of a buffer, else zero). *)
Theorem C41_sent : forall (cfg : Cfg) hmac wrap unwrap, hmac_sha1 hmac -> key_wrap wrap unwrap ->
  forall kck kek kck_opt kek_opt h oui et (k : KeyFrame Container) kd buffer temp,
  ok_data_header h -> length oui = 3 -> wf_bytes oui ->
  Writes (c_write (key_data k)) kd -> ok_key_frame (with_data k kd) ->
  (has_mic (key_information k) -> kck_opt = Some kck /\ length (key_mic k) = 16) ->
  (has_encrypted_data (key_information k) -> kd <> [] -> kek_opt = Some kek) ->
  24 <= temp -> (has_encrypted_data (key_information k) -> length (sent_data wrap kek (key_information k) kd) <= temp) ->
  let sent := with_data k (sent_data wrap kek (key_information k) kd) in
  let frame := enc_eapol h oui et (with_mic sent (sent_mic hmac kck sent)) in
  length frame + slack <= length buffer ->
  serialize_eapol hmac wrap kck_opt kek_opt (h, Some (mkSnap oui et k)) buffer temp = Ok (frame ++ skipn (length frame) buffer, length frame).
Proof. exact @serialized. Qed.
Print Assumptions C41_sent.
(** Every outcome for a buffer that has room for the plain frame, ... *)
Theorem C41_outcome : forall (cfg : Cfg) hmac wrap unwrap, hmac_sha1 hmac -> key_wrap wrap unwrap ->
  forall kck kek h oui et (k : KeyFrame Container) kd buffer temp,
  ok_data_header h -> length oui = 3 -> wf_bytes oui ->
  Writes (c_write (key_data k)) kd -> ok_key_frame (with_data k kd) ->
  length (enc_eapol h oui et (with_data k kd)) + slack <= length buffer ->
  let sent := with_data k (sent_data wrap (the_key kek) (key_information k) kd) in
  let frame := enc_eapol h oui et (with_mic sent (sent_mic hmac (the_key kck) sent)) in
  serialize_eapol hmac wrap kck kek (h, Some (mkSnap oui et k)) buffer temp =
  match send_outcome kck kek (key_information k) (length (key_mic k)) (length kd) (length (enc_eapol h oui et (with_data k []))) (length buffer) temp with
  | Ok _ => Ok (frame ++ skipn (length frame) buffer, length frame)
  | Err e => Err e
  | Panic => Panic
  end.
Proof. exact @serialize_outcome. Qed.
Print Assumptions C41_outcome.
(** ... and for a shorter one, ... *)
Theorem C41_short : forall (cfg : Cfg) hmac wrap kck kek h oui et (k : KeyFrame Container) kd buffer temp,
  ok_data_header h -> length oui = 3 -> wf_bytes oui ->
  Writes (c_write (key_data k)) kd -> ok_key_frame (with_data k kd) ->
  length buffer < length (enc_eapol h oui et (with_data k kd)) ->
  serialize_eapol hmac wrap kck kek (h, Some (mkSnap oui et k)) buffer temp = Err (if temp <? 24 then TemporaryBufferToShort else BufferTooShort).
Proof. exact @serialize_short. Qed.
Print Assumptions C41_short.
(** ... without a key frame, ... *)
Theorem C41_no_payload : forall (cfg : Cfg) hmac wrap kck kek h buffer temp,
  serialize_eapol hmac wrap kck kek (h, None) buffer temp = Err (if temp <? 24 then TemporaryBufferToShort else NoPayload).
Proof. exact @serialize_none. Qed.
Print Assumptions C41_no_payload.
(** ... in particular the cases in which it panics *)
Theorem C41_panics_partial : forall (cfg : Cfg) hmac wrap unwrap, hmac_sha1 hmac -> key_wrap wrap unwrap ->
  forall kck kek h oui et (k : KeyFrame Container) kd buffer temp,
  ok_data_header h -> length oui = 3 -> wf_bytes oui ->
  Writes (c_write (key_data k)) kd -> ok_key_frame (with_data k kd) ->
  length (enc_eapol h oui et (with_data k kd)) + slack <= length buffer ->
  serialize_eapol hmac wrap kck kek (h, Some (mkSnap oui et k)) buffer temp = Panic <->
  serialize_panics kck kek (key_information k) (length (key_mic k)) (length kd) (length (enc_eapol h oui et (with_data k []))) (length buffer) temp.
Proof. exact @serialize_panics_iff. Qed.
Print Assumptions C41_panics_partial.
(** key data of 17 bytes becomes 32 bytes: a MIC and room for all, too short a temporary buffer, too short buffers, no key *)
Example C41_outcome_ex :
  send_outcome (Some []) (Some []) 0x1100 16 17 123 163 32 = Ok tt /\
  send_outcome (Some []) (Some []) 0x1100 16 17 123 163 31 = Panic /\
  send_outcome (Some []) (Some []) 0x1100 16 17 123 154 32 = Err BufferTooShort /\
  send_outcome (Some []) None 0x1100 16 17 123 163 32 = Err MissingKey /\
  send_outcome (Some []) (Some []) 0x1100 24 17 123 163 32 = Panic.
Proof. vm_compute. auto. Qed.
(** The receiver accepts the frame and gets the same fields and the key data, padded if it was encrypted, provided the
    MIC field has 16 bytes and was zero, and encrypted key data is not empty. *)
Theorem C41_round_trip_partial : forall (cfg : Cfg) hmac wrap unwrap, hmac_sha1 hmac -> key_wrap wrap unwrap ->
  forall kck kek kck_opt kek_opt h oui (k : KeyFrame Container) kd akm buffer temp temp' fcs (with_fcs : bool),
  ok_data_header h -> length oui = 3 -> wf_bytes oui ->
  Writes (c_write (key_data k)) kd -> wf_bytes kd ->
  let info := key_information k in
  let sent := with_data k (sent_data wrap kek info kd) in
  ok_key_frame sent -> key_mic k = repeat 0%N 16 -> key_mic_len akm = Some 16 ->
  (has_mic info -> kck_opt = Some kck) ->
  (has_encrypted_data info -> kek_opt = Some kek /\ kd <> [] /\ length (key_data sent) <= temp /\ length (pad_key_data kd) <= temp') ->
  strict_end = false \/ kd <> [] -> 24 <= temp ->
  let mic := if N.testbit info 8 then frame_mic hmac kck sent else repeat 0%N 16 in
  let frame := enc_eapol h oui 0x888e (with_mic sent mic) in
  length frame + slack <= length buffer -> length fcs = (if with_fcs then 4 else 0) ->
  serialize_eapol hmac wrap kck_opt kek_opt (h, Some (mkSnap oui 0x888e k)) buffer temp = Ok (frame ++ skipn (length frame) buffer, length frame) /\
  deserialize_eapol hmac unwrap kck_opt kek_opt (frame ++ fcs) temp' akm with_fcs = Ok (with_data (with_mic k mic) (received_data info kd)).
Proof. exact @round_trip. Qed.
Print Assumptions C41_round_trip_partial.
(** The MIC is computed over whatever the caller put into the MIC field: a frame of which it is not zero is refused. *)
Theorem C41_mic_field_refuted : forall (cfg : Cfg), send_and_receive 0x010a (repeat 1%N 16) [1; 2; 3]%N Ak_Psk = Some (Err InvalidMic).
Proof. exact @mic_input_witness. Qed.
Print Assumptions C41_mic_field_refuted.
(** Not only there: such a frame is always refused, unless two different inputs have the same MIC. *)
Theorem C41_mic_field : forall (cfg : Cfg) hmac wrap unwrap, hmac_sha1 hmac -> key_wrap wrap unwrap ->
  forall kck kek h oui (k : KeyFrame Container) kd buffer temp buf' n kek' akm temp' fcs (with_fcs : bool),
  ok_data_header h -> length oui = 3 -> wf_bytes oui -> Writes (c_write (key_data k)) kd ->
  ok_key_frame (with_data k kd) -> ok_key_frame (with_data k (sent_data wrap (the_key kek) (key_information k) kd)) ->
  length (enc_eapol h oui 0x888e (with_data k kd)) + slack <= length buffer ->
  serialize_eapol hmac wrap (Some kck) kek (h, Some (mkSnap oui 0x888e k)) buffer temp = Ok (buf', n) ->
  key_mic_len akm = Some 16 -> strict_end = false \/ kd <> [] -> length fcs = (if with_fcs then 4 else 0) ->
  has_mic (key_information k) -> length (key_mic k) = 16 -> key_mic k <> repeat 0%N 16 ->
  deserialize_eapol hmac unwrap (Some kck) kek' (firstn n buf' ++ fcs) temp' akm with_fcs = Err InvalidMic \/
  exists x y, x <> y /\ firstn 16 (hmac kck x) = firstn 16 (hmac kck y).
Proof. exact @mic_field. Qed.
Print Assumptions C41_mic_field.
(** A complete key frame on the air at any receiver, with the right keys, with other keys or without ([arrival], SpecArrival.v), ... *)
Theorem C41_arrives : forall (cfg : Cfg) hmac wrap unwrap, hmac_sha1 hmac -> key_wrap wrap unwrap ->
  forall kck kek h oui (k : KeyFrame bytes) akm temp fcs (with_fcs : bool),
  ok_data_header h -> length oui = 3 -> wf_bytes oui -> ok_key_frame k -> key_mic_len akm = Some (length (key_mic k)) ->
  strict_end = false \/ (if N.testbit (key_information k) 12 then 8 else 0) < length (key_data k) ->
  length fcs = (if with_fcs then 4 else 0) ->
  deserialize_eapol hmac unwrap kck kek (enc_eapol h oui 0x888e k ++ fcs) temp akm with_fcs = arrival hmac unwrap kck kek temp k.
Proof. exact @arrives. Qed.
Print Assumptions C41_arrives.
(** ... and whatever the sender returned, whatever its keys. *)
Theorem C41_sent_arrives : forall (cfg : Cfg) hmac wrap unwrap, hmac_sha1 hmac -> key_wrap wrap unwrap ->
  forall kck kek h oui (k : KeyFrame Container) kd buffer temp buf' n kck' kek' akm temp' fcs (with_fcs : bool),
  ok_data_header h -> length oui = 3 -> wf_bytes oui -> Writes (c_write (key_data k)) kd ->
  let sent := with_data k (sent_data wrap (the_key kek) (key_information k) kd) in
  ok_key_frame (with_data k kd) -> ok_key_frame sent -> length (enc_eapol h oui 0x888e (with_data k kd)) + slack <= length buffer ->
  serialize_eapol hmac wrap kck kek (h, Some (mkSnap oui 0x888e k)) buffer temp = Ok (buf', n) ->
  key_mic_len akm = Some (length (key_mic k)) -> strict_end = false \/ kd <> [] -> length fcs = (if with_fcs then 4 else 0) ->
  deserialize_eapol hmac unwrap kck' kek' (firstn n buf' ++ fcs) temp' akm with_fcs =
    arrival hmac unwrap kck' kek' temp' (with_mic sent (sent_mic hmac (the_key kck) sent)).
Proof. exact @sent_arrives. Qed.
Print Assumptions C41_sent_arrives.
(** the frame of the repository's test: the right keys, another KCK, another KEK, no keys *)
Example C41_arrives_ex : let k := with_data (test_key_frame test_mic []) (aes_wrap test_kek test_data) in
  ok_key_frame k /\ key_mic_len Ak_Psk = Some (length (key_mic k)) /\ 8 < length (key_data k) /\
  arrival hmac_sha1_of aes_unwrap (Some test_kck) (Some test_kek) 100 k = Ok (test_key_frame test_mic test_data) /\
  arrival hmac_sha1_of aes_unwrap (Some test_kek) (Some test_kek) 100 k = Err InvalidMic /\
  arrival hmac_sha1_of aes_unwrap (Some test_kck) (Some test_kck) 100 k = Err TemporaryBufferToShort /\
  arrival hmac_sha1_of aes_unwrap (Some test_kck) None 100 k = Err MissingKey.
Proof. exact arrives_ex. Qed.
(** Empty key data is not encrypted even if it is announced; the receiver panics. *)
Theorem C41_empty_data_refuted : forall (cfg : Cfg), send_and_receive 0x110a (repeat 0%N 16) [] Ak_Psk = Some Panic.
Proof. exact @empty_data_witness. Qed.
Print Assumptions C41_empty_data_refuted.
Theorem C41_empty_data : forall (cfg : Cfg) hmac wrap unwrap, hmac_sha1 hmac -> key_wrap wrap unwrap ->
  forall kck kek h oui (k : KeyFrame Container) buffer temp buf' n kek' akm temp' fcs (with_fcs : bool),
  ok_data_header h -> length oui = 3 -> wf_bytes oui -> Writes (c_write (key_data k)) [] -> ok_key_frame (with_data k []) ->
  length (enc_eapol h oui 0x888e (with_data k [])) + slack <= length buffer ->
  serialize_eapol hmac wrap (Some kck) kek (h, Some (mkSnap oui 0x888e k)) buffer temp = Ok (buf', n) ->
  key_mic_len akm = Some 16 -> strict_end = false -> length fcs = (if with_fcs then 4 else 0) ->
  has_encrypted_data (key_information k) -> key_mic k = repeat 0%N 16 ->
  deserialize_eapol hmac unwrap (Some kck) kek' (firstn n buf' ++ fcs) temp' akm with_fcs = match kek' with None => Err MissingKey | Some _ => Panic end.
Proof. exact @empty_encrypted. Qed.
Print Assumptions C41_empty_data.
(** A MIC of 24 bytes (AKM suites 12, 13 and 17) makes the sender panic, as does a temporary buffer that is too short. *)
Theorem C41_long_mic_refuted : forall (cfg : Cfg),
  serialize_eapol hmac_sha1_of aes_wrap (Some test_kck) (Some test_kek) (small_frame 0x010a (repeat 0%N 24) [1; 2; 3]%N) (repeat 0%N 300) 100 = Panic.
Proof. exact @long_mic_witness. Qed.
Print Assumptions C41_long_mic_refuted.
Theorem C41_short_buffer_refuted : forall (cfg : Cfg),
  serialize_eapol hmac_sha1_of aes_wrap (Some test_kck) (Some test_kek) (small_frame 0x100a (repeat 0%N 16) (repeat 1%N 17)) (repeat 0%N 300) 31 = Panic.
Proof. exact @short_temp_witness. Qed.
Print Assumptions C41_short_buffer_refuted.
(** the test of /repo/tests/crypto/eapol.rs *)
Example C41_ex_received : forall (cfg : Cfg),
  deserialize_eapol hmac_sha1_of aes_unwrap (Some test_kck) (Some test_kek) test_frame 100 Ak_Psk false = Ok (test_key_frame test_mic test_data).
Proof. exact @test_deserialize. Qed.
Example C41_ex_sent : forall (cfg : Cfg), native_le = true ->
  serialize_eapol hmac_sha1_of aes_wrap (Some test_kck) (Some test_kek) (test_header, Some (mkSnap [0; 0; 0]%N 0x888e (with_data (test_key_frame (repeat 0%N 16) []) (c_bytes test_data))))
    (repeat 0%N 300) 100 = Ok (test_frame ++ repeat 0%N 89, 211).
Proof. exact @test_serialize. Qed.

(** it meets the hypotheses of [C41_sent] and [C41_round_trip_partial] *)
Example C41_ex : let k := with_data (test_key_frame (repeat 0%N 16) []) (c_bytes test_data) in
  let sent := with_data k (sent_data aes_wrap test_kek (key_information k) test_data) in
  ok_data_header test_header /\ std_has_payload (subtype_number test_header) = true /\ wf_bytes test_data /\
  (forall cfg : Cfg, Writes (c_write (key_data k)) test_data) /\ ok_key_frame (with_data k test_data) /\ ok_key_frame sent /\
  key_mic k = repeat 0%N 16 /\ key_mic_len Ak_Psk = Some 16 /\ has_mic (key_information k) /\ has_encrypted_data (key_information k) /\
  length (key_data sent) <= 100.
Proof. exact test_hypotheses. Qed.

(** ** C42 *)
(** [b'] is the frame without FCS, [e] the offset of the EAPOL packet. *)
Theorem C42_authenticated : forall (cfg : Cfg) hmac wrap unwrap, hmac_sha1 hmac -> key_wrap wrap unwrap ->
  forall kck kek b temp akm (with_fcs : bool) k, wf_bytes b ->
  deserialize_eapol hmac unwrap kck kek b temp akm with_fcs = Ok k -> has_mic (key_information k) ->
  let b' := if with_fcs then firstn (length b - 4) b else b in
  exists key e, kck = Some key /\ eapol_offset b' e /\
    between_bytes b' (e + 81) (e + 81 + length (key_mic k)) = key_mic k /\ length (key_mic k) <= 20 /\
    key_mic k = firstn (length (key_mic k))
      (hmac key (between_bytes b' e (e + 81) ++ repeat 0%N (length (key_mic k)) ++ skipn (e + 81 + length (key_mic k)) b')).
Proof. exact @authenticated. Qed.
Print Assumptions C42_authenticated.
(** Where the fields of the result come from: everything returned stood in the frame, or was unwrapped from it with
    the KEK. *)
Theorem C42_fields : forall (cfg : Cfg) hmac wrap unwrap, hmac_sha1 hmac -> key_wrap wrap unwrap ->
  forall kck kek b temp akm (with_fcs : bool) k, wf_bytes b ->
  deserialize_eapol hmac unwrap kck kek b temp akm with_fcs = Ok k ->
  let b' := if with_fcs then firstn (length b - 4) b else b in
  exists e m version reserved, eapol_offset b' e /\ key_mic_len akm = Some m /\ length (key_mic k) = m /\ ok_key_frame k /\ length reserved = 8 /\
    e + 81 + m + 2 + data_length_at b' e m <= length b' /\
    between_bytes b' e (e + 2) = [version; 3]%N /\
    between_bytes b' (e + 4) (e + 81) = received_fields reserved k /\
    between_bytes b' (e + 81) (e + 81 + m) = key_mic k /\
    key_information k = info_at b' e /\
    passes_mic hmac kck b' e m /\
    (let data := between_bytes b' (e + 81 + m + 2) (e + 81 + m + 2 + data_length_at b' e m) in
     if N.testbit (key_information k) 12 then exists key, kek = Some key /\ unwrap key data = Some (key_data k)
     else key_data k = data).
Proof. exact @accepted. Qed.
Print Assumptions C42_fields.
(** A frame that does not announce a MIC is not checked, even if the caller gives a KCK. *)
Theorem C42_not_announced : forall (cfg : Cfg) hmac hmac' unwrap kck kck' kek b temp akm e, hmac_sha1 hmac -> hmac_sha1 hmac' ->
  (forall kek c p, unwrap kek c = Some p -> length p + 8 = length c) -> wf_bytes b ->
  eapol_offset b e -> ~ has_mic (info_at b e) ->
  deserialize_eapol hmac unwrap kck kek b temp akm false = deserialize_eapol hmac' unwrap kck' kek b temp akm false.
Proof. exact @not_announced. Qed.
Print Assumptions C42_not_announced.
(** The FCS is removed, but not checked. *)
Theorem C42_fcs_ignored : forall (cfg : Cfg) hmac unwrap kck kek b fcs fcs' temp akm, length fcs = 4 -> length fcs' = 4 ->
  deserialize_eapol hmac unwrap kck kek (b ++ fcs) temp akm true = deserialize_eapol hmac unwrap kck kek (b ++ fcs') temp akm true.
Proof. exact @fcs_ignored. Qed.
Print Assumptions C42_fcs_ignored.
(** A second frame accepted with a MIC seen before (an altered or replayed one) has the same content, or it yields two different
    inputs with the same truncated HMAC under the key. *)
Theorem C42_tampered : forall (cfg : Cfg) hmac wrap unwrap, hmac_sha1 hmac -> key_wrap wrap unwrap ->
  forall kck kek b1 b2 temp1 temp2 akm (with_fcs1 with_fcs2 : bool) (k1 k2 : KeyFrame bytes), wf_bytes b1 -> wf_bytes b2 ->
  deserialize_eapol hmac unwrap kck kek b1 temp1 akm with_fcs1 = Ok k1 -> deserialize_eapol hmac unwrap kck kek b2 temp2 akm with_fcs2 = Ok k2 ->
  has_mic (key_information k1) -> has_mic (key_information k2) -> key_mic k1 = key_mic k2 ->
  k1 = k2 \/ exists key x y, kck = Some key /\ x <> y /\
    firstn (length (key_mic k1)) (hmac key x) = firstn (length (key_mic k1)) (hmac key y).
Proof. exact @tampered. Qed.
Print Assumptions C42_tampered.
(** The result for every byte string, key set, buffer size and suite: which frame is returned, which error, and when there is a panic. *)
Theorem C42_outcome : forall (cfg : Cfg) hmac wrap unwrap, hmac_sha1 hmac -> key_wrap wrap unwrap ->
  forall kck kek b temp akm (with_fcs : bool), wf_bytes b ->
  deserialize_eapol hmac unwrap kck kek b temp akm with_fcs =
  if with_fcs && (length b <? 4) then if overflow_checks then Panic else Err BufferTooShort
  else receive_outcome strict_end hmac unwrap kck kek (frame_part with_fcs b) temp akm.
Proof. exact @receive_exact. Qed.
Print Assumptions C42_outcome.
(** hypotheses of these: [C41_ex_received] *)
Example C42_ex : has_mic (key_information (test_key_frame test_mic test_data)) /\ wf_bytes test_frame /\ eapol_offset test_frame 32.
Proof. exact test_frame_ok. Qed.
Example C42_outcome_ex : forall strict, receive_outcome strict hmac_sha1_of aes_unwrap (Some test_kck) (Some test_kek) test_frame 100 Ak_Psk =
    Ok (test_key_frame test_mic test_data) /\
  receive_outcome strict hmac_sha1_of aes_unwrap None (Some test_kek) test_frame 100 Ak_Psk = Err MissingKey /\
  receive_outcome strict hmac_sha1_of aes_unwrap None None (firstn 38 test_frame) 100 Ak_Psk = Err BufferTooShort /\
  receive_outcome strict hmac_sha1_of aes_unwrap None None (firstn 36 test_frame) 100 Ak_Psk = Panic.
Proof. exact test_frame_outcomes. Qed.
Example C42_forged_ex : forall (cfg : Cfg),
  deserialize_eapol hmac_sha1_of aes_unwrap (Some test_kck) (Some test_kek) (overwrite test_frame 60 [0x55]%N) 100 Ak_Psk false = Err InvalidMic.
Proof. exact @forged. Qed.

(** ** C43 *)
(** All frames that make the deserialiser panic, without and with FCS. *)
Theorem C43_panics_partial : forall (cfg : Cfg) hmac wrap unwrap, hmac_sha1 hmac -> key_wrap wrap unwrap ->
  forall kck kek b temp akm, wf_bytes b ->
  deserialize_eapol hmac unwrap kck kek b temp akm false = Panic <-> deserialize_panics hmac kck kek b temp akm.
Proof. exact @deser_panics_plain. Qed.
Print Assumptions C43_panics_partial.
Theorem C43_panics_fcs_partial : forall (cfg : Cfg) hmac wrap unwrap, hmac_sha1 hmac -> key_wrap wrap unwrap ->
  forall kck kek b temp akm, wf_bytes b ->
  deserialize_eapol hmac unwrap kck kek b temp akm true = Panic <->
  (length b < 4 /\ overflow_checks = true) \/ (4 <= length b /\ deserialize_panics hmac kck kek (firstn (length b - 4) b) temp akm).
Proof. exact @deser_panics_fcs. Qed.
Print Assumptions C43_panics_fcs_partial.
(** One for each case. *)
Theorem C43_short_refuted : forall (cfg : Cfg), deserialize_eapol hmac_sha1_of aes_unwrap None None short_frame 100 Ak_Psk false = Panic.
Proof. exact @panic_short_witness. Qed.
Print Assumptions C43_short_refuted.
Theorem C43_mic_refuted : forall (cfg : Cfg), exists akm, key_mic_len akm = Some 24 /\
  deserialize_eapol hmac_sha1_of aes_unwrap (Some test_kck) None (raw_frame 0x0100 24 0 []) 100 akm false = Panic.
Proof. exact @panic_mic_witness. Qed.
Print Assumptions C43_mic_refuted.
Theorem C43_data_refuted : forall (cfg : Cfg), deserialize_eapol hmac_sha1_of aes_unwrap None None (raw_frame 0x1000 16 1 []) 100 Ak_Psk false = Panic.
Proof. exact @panic_data_witness. Qed.
Print Assumptions C43_data_refuted.
Theorem C43_length_refuted : forall (cfg : Cfg),
  deserialize_eapol hmac_sha1_of aes_unwrap None (Some test_kek) (raw_frame 0x1000 16 0 []) 100 Ak_Psk false = Panic.
Proof. exact @panic_length_witness. Qed.
Print Assumptions C43_length_refuted.
Theorem C43_temp_refuted : forall (cfg : Cfg),
  deserialize_eapol hmac_sha1_of aes_unwrap None (Some test_kek) (raw_frame 0x1000 16 120 (repeat 0%N 120)) 100 Ak_Psk false = Panic.
Proof. exact @panic_temp_witness. Qed.
Print Assumptions C43_temp_refuted.
