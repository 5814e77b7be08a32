(** Specification of the key hierarchy (IEEE 802.11-2020, 12.7.1) and of protected EAPOL key frames (12.7.2, 12.7.3). *)
From Verif Require Import Base SpecBase Suites Rsn Data SpecData SpecEapol Eapol KeyMgmt.

(** ** PRF (12.7.1.2) *)
(** block [i] for label [A] and data [B] *)
Definition prf_block (hmac : bytes -> bytes -> bytes) (key label data : bytes) (i : N) : bytes :=
  hmac key (label ++ [0]%N ++ data ++ [i]).
(** the first [blocks] blocks *)
Definition prf_stream hmac key label data (blocks : nat) : bytes :=
  concat (map (fun i => prf_block hmac key label data (N.of_nat i)) (seq 0 blocks)).
(** "PMK Name" *)
Definition pmk_name : bytes := [0x50; 0x4d; 0x4b; 0x20; 0x4e; 0x61; 0x6d; 0x65]%N.
(** "Pairwise key expansion" *)
Definition pairwise_key_expansion : bytes :=
  [0x50; 0x61; 0x69; 0x72; 0x77; 0x69; 0x73; 0x65; 0x20; 0x6b; 0x65; 0x79; 0x20; 0x65; 0x78; 0x70; 0x61; 0x6e; 0x73; 0x69; 0x6f; 0x6e]%N.
(** [lo] and [hi] are the smaller and the larger of two byte strings, compared as big-endian numbers *)
Definition min_max (a b lo hi : bytes) : Prop :=
  (be_val lo <= be_val hi)%N /\ ((lo = a /\ hi = b) \/ (lo = b /\ hi = a)).

(** ** Protected key frames *)
(** key information *)
Definition has_mic (info : N) : Prop := N.testbit info 8 = true.
Definition has_encrypted_data (info : N) : Prop := N.testbit info 12 = true.
(** Padding of key data to be wrapped: 0xdd and zeros up to a multiple of eight bytes, at least 16 (12.7.2) *)
Definition pad_key_data (kd : bytes) : bytes :=
  kd ++ match Nat.max 16 (8 * ((length kd + 7) / 8)) - length kd with O => [] | S n => 0xdd%N :: repeat 0%N n end.
(** What is needed of AES key wrap: it adds eight bytes and can be undone. *)
Record key_wrap (wrap : bytes -> bytes -> bytes) (unwrap : bytes -> bytes -> option bytes) : Prop := {
  kw_length : forall kek p, 16 <= length p -> length p mod 8 = 0 -> length (wrap kek p) = length p + 8;
  kw_wf : forall kek p, wf_bytes p -> wf_bytes (wrap kek p);
  kw_inverse : forall kek p, 16 <= length p -> length p mod 8 = 0 -> wf_bytes p -> unwrap kek (wrap kek p) = Some p;
  kw_unwrap_length : forall kek c p, unwrap kek c = Some p -> length p + 8 = length c;
  kw_unwrap_wf : forall kek c p, wf_bytes c -> unwrap kek c = Some p -> wf_bytes p
}.
Record hmac_sha1 (hmac : bytes -> bytes -> bytes) : Prop := {
  hmac_length : forall key m, length (hmac key m) = 20;
  hmac_wf : forall key m, wf_bytes (hmac key m)
}.
(** the MIC of a frame whose MIC field is zero *)
Definition frame_mic (hmac : bytes -> bytes -> bytes) (kck : bytes) (k : KeyFrame bytes) : bytes :=
  firstn 16 (hmac kck (enc_key_frame (with_mic k (repeat 0%N 16)))).
(** key data as sent *)
Definition sent_data (wrap : bytes -> bytes -> bytes) (kek : bytes) (info : N) (kd : bytes) : bytes :=
  if N.testbit info 12 then match kd with [] => [] | _ => wrap kek (pad_key_data kd) end else kd.
(** key data as received *)
Definition received_data (info : N) (kd : bytes) : bytes :=
  if N.testbit info 12 then match kd with [] => [] | _ => pad_key_data kd end else kd.
(** the MIC [serialize_eapol_data_frame] computes: of the frame with the MIC field as given by the caller *)
Definition sent_mic (hmac : bytes -> bytes -> bytes) (kck : bytes) (k : KeyFrame bytes) : bytes :=
  if N.testbit (key_information k) 8 then firstn 16 (hmac kck (enc_key_frame k)) else key_mic k.
(** What becomes of sending a frame whose plain form fits into the buffer: [mic] and [data] are the lengths of the MIC and of the
    key data, [head] the number of bytes in front of the key data, [room] the length of the buffer *)
Definition missing {A} (key : option A) : bool := match key with None => true | Some _ => false end.
Definition send_outcome (kck kek : option bytes) (info : N) (mic data head room temp : nat) : Res EapolSerdeError unit :=
  let padded := Nat.max 16 (8 * ((data + 7) / 8)) in
  let encrypt := N.testbit info 12 && negb (data =? 0) in
  if temp <? 24 then Err TemporaryBufferToShort
  else if encrypt && (room <? head + padded) then Err BufferTooShort
  else if encrypt && missing kek then Err MissingKey
  else if encrypt && (temp <? padded + 8) then Panic
  else if encrypt && (room <? head + padded + 8) then Err BufferTooShort
  else if N.testbit info 8 && missing kck then Err MissingKey
  else if N.testbit info 8 && negb (mic =? 16) then Panic
  else Ok tt.
(** the key, if there is one *)
Definition the_key (key : option bytes) : bytes := match key with Some k => k | None => [] end.
(** the cases in which [serialize_eapol_data_frame] panics *)
Inductive serialize_panics (kck kek : option bytes) (info : N) (mic data head room temp : nat) : Prop :=
| send_panic_temp : 24 <= temp -> has_encrypted_data info -> data <> 0 -> kek <> None ->
    head + Nat.max 16 (8 * ((data + 7) / 8)) <= room -> temp < Nat.max 16 (8 * ((data + 7) / 8)) + 8 ->
    serialize_panics kck kek info mic data head room temp
| send_panic_mic : 24 <= temp -> has_mic info -> kck <> None -> mic <> 16 ->
    (has_encrypted_data info -> data <> 0 -> kek <> None /\
       Nat.max 16 (8 * ((data + 7) / 8)) + 8 <= temp /\ head + Nat.max 16 (8 * ((data + 7) / 8)) + 8 <= room) ->
    serialize_panics kck kek info mic data head room temp.

(** ** Received frames *)
(** length of the header of a data frame; nothing if [b] is no data frame or too short *)
Definition header_size (b : bytes) : option nat :=
  match b with
  | b0 :: b1 :: _ => if ((b0 / 4) mod 4 =? 2)%N && (data_header_size b0 b1 <=? length b) then Some (data_header_size b0 b1) else None
  | _ => None
  end.
(** offset of the EAPOL packet: the EtherType 0x888e is in the two bytes in front of it *)
Definition eapol_offset (b : bytes) (e : nat) : Prop :=
  exists s, header_size b = Some s /\ e = s + 8 /\ e <= length b /\ between_bytes b (s + 6) (s + 8) = [0x88; 0x8e]%N.
(** the key information field of the EAPOL packet at [e] *)
Definition info_at (b : bytes) (e : nat) : N := be_val (between_bytes b (e + 5) (e + 7)).
(** The MIC of [m] bytes of the packet at [e] is that of the packet with zeros in its place. *)
Definition mic_correct (hmac : bytes -> bytes -> bytes) (kck b : bytes) (e m : nat) : Prop :=
  e + 81 + m <= length b /\
  between_bytes b (e + 81) (e + 81 + m) =
  firstn m (hmac kck (between_bytes b e (e + 81) ++ repeat 0%N m ++ skipn (e + 81 + m) b)).
(** the length of the key data of the packet at [e] *)
Definition data_length_at (b : bytes) (e m : nat) : nat := N.to_nat (be_val (between_bytes b (e + 81 + m) (e + 81 + m + 2))).
(** the fields in front of the MIC, with any reserved bytes *)
Definition received_fields {P} (reserved : bytes) (k : KeyFrame P) : bytes :=
  [2]%N ++ be_bytes 2 (key_information k) ++ be_bytes 2 (key_length k) ++ be_bytes 8 (key_replay_counter k) ++
  key_nonce k ++ be_bytes 16 (key_iv k) ++ be_bytes 8 (key_rsc k) ++ reserved.
(** The packet passes the check of the MIC: it is correct or not announced. *)
Definition passes_mic (hmac : bytes -> bytes -> bytes) (kck : option bytes) (b : bytes) (e m : nat) : Prop :=
  has_mic (info_at b e) -> exists key, kck = Some key /\ m <= 20 /\ mic_correct hmac key b e m.
(** The cases in which [deserialize_eapol_data_frame] panics on a frame without FCS *)
Inductive deserialize_panics (hmac : bytes -> bytes -> bytes) (kck kek : option bytes) (b : bytes) (temp : nat) (akm : AkmType) : Prop :=
| panic_short e : eapol_offset b e -> length b < e + 5 -> deserialize_panics hmac kck kek b temp akm
| panic_mic e key m : eapol_offset b e -> has_mic (info_at b e) -> kck = Some key -> key_mic_len akm = Some m -> 20 < m ->
    e + 81 + m <= length b -> deserialize_panics hmac kck kek b temp akm
| panic_data e m : eapol_offset b e -> key_mic_len akm = Some m -> passes_mic hmac kck b e m -> has_encrypted_data (info_at b e) ->
    e + 81 + m + 2 <= length b -> length b < e + 81 + m + 2 + data_length_at b e m -> deserialize_panics hmac kck kek b temp akm
| panic_length e m : eapol_offset b e -> key_mic_len akm = Some m -> passes_mic hmac kck b e m -> has_encrypted_data (info_at b e) -> kek <> None ->
    e + 81 + m + 2 <= length b -> data_length_at b e m < 8 -> deserialize_panics hmac kck kek b temp akm
| panic_temp e m : eapol_offset b e -> key_mic_len akm = Some m -> passes_mic hmac kck b e m -> has_encrypted_data (info_at b e) -> kek <> None ->
    e + 81 + m + 2 + data_length_at b e m <= length b -> temp + 8 < data_length_at b e m -> deserialize_panics hmac kck kek b temp akm.

(** ** The caller's buffer afterwards *)
(** The packet at [e] with its key data decrypted in place: the length of the packet (which counts everything behind it) is
    eight less, the length of the key data is that of the plain key data, which replaces the front of the encrypted key data.
    Everything else stays, in particular the MIC. *)
Definition decrypted_in_place (b : bytes) (e m : nat) (plain : bytes) : bytes :=
  firstn (e + 2) b ++ be_bytes 2 (N.of_nat (length b - 8 - e - 4)) ++ between_bytes b (e + 4) (e + 81 + m) ++
  be_bytes 2 (N.of_nat (length plain)) ++ plain ++ skipn (e + 81 + m + 2 + length plain) b.
(** The packet at [e] passes the check of the MIC, announces encrypted key data, and this unwraps to [plain]. *)
Definition unwraps (hmac : bytes -> bytes -> bytes) (unwrap : bytes -> bytes -> option bytes) (kck kek : option bytes) (b : bytes) (akm : AkmType)
  (e m : nat) (plain : bytes) : Prop :=
  eapol_offset b e /\ key_mic_len akm = Some m /\ passes_mic hmac kck b e m /\ has_encrypted_data (info_at b e) /\
  e + 81 + m + 2 + data_length_at b e m <= length b /\
  exists key, kek = Some key /\ unwrap key (between_bytes b (e + 81 + m + 2) (e + 81 + m + 2 + data_length_at b e m)) = Some plain.
(** the buffer in front of the FCS, and the FCS *)
Definition frame_part (with_fcs : bool) (b : bytes) : bytes := if with_fcs then firstn (length b - 4) b else b.
Definition fcs_part (with_fcs : bool) (b : bytes) : bytes := if with_fcs then skipn (length b - 4) b else [].

(** What sending a frame whose plain form fits leaves in the buffer: the frame, if it is sent; else what is there so far, which is
    nothing, the plain frame, the plain frame with padding, or the frame without MIC. *)
Definition buffer_after {P} (hmac wrap : bytes -> bytes -> bytes) (kck kek : option bytes) (h : DataHeader) (oui : bytes) (et : N) (k : KeyFrame P) (kd buffer : bytes) (temp : nat) : bytes :=
  let info := key_information k in
  let plain := enc_eapol h oui et (with_data k kd) in
  let padding := skipn (length kd) (pad_key_data kd) in
  let sent := with_data k (sent_data wrap (the_key kek) info kd) in
  let front_is s := s ++ skipn (length s) buffer in
  let head := length plain - length kd in
  let padded := length (pad_key_data kd) in
  let encrypt := N.testbit info 12 && negb (length kd =? 0) in
  if temp <? 24 then buffer
  else if encrypt && (length buffer <? head + padded) then front_is plain
  else if encrypt && (missing kek || (temp <? padded + 8) || (length buffer <? head + padded + 8)) then front_is (plain ++ padding)
  else if N.testbit info 8 && (missing kck || negb (length (key_mic k) =? 16)) then front_is (enc_eapol h oui et sent)
  else front_is (enc_eapol h oui et (with_mic sent (sent_mic hmac (the_key kck) sent))).
(** the number of bytes of the frame when it is sent *)
Definition sent_length {P} (h : DataHeader) (oui : bytes) (et : N) (k : KeyFrame P) (kd : bytes) : nat :=
  length (enc_eapol h oui et (with_data k kd)) +
  if N.testbit (key_information k) 12 && negb (length kd =? 0) then length (pad_key_data kd) + 8 - length kd else 0.

(** ** The result for every received frame *)
(** The fields of a key frame that starts at the front of [p], by their positions (IEEE 802.11-2020, 12.7.2); [m] is the length of the MIC. *)
Definition key_frame_in (m : nat) (p : bytes) : KeyFrame bytes :=
  let field a c := be_val (between_bytes p a c) in
  mkKF (field 5 7) (field 7 9) (field 9 17) (between_bytes p 17 49) (field 49 65) (field 65 73)
    (between_bytes p 81 (81 + m)) (between_bytes p (83 + m) (83 + m + data_length_at p 0 m)).
(** [p] starts with an EAPOL packet of type 3 (key) with descriptor type 2 (RSN), [p] is as long as the packet says, and this
    length covers the key data. If the reader refuses offsets at the end of the packet, empty key data must not be at its end. *)
Definition key_frame_complete (strict : bool) (m : nat) (p : bytes) : bool :=
  let len := 4 + N.to_nat (be_val (between_bytes p 2 4)) in
  let full := 83 + m + data_length_at p 0 m in
  (nth 1 p 0 =? 3)%N && (nth 4 p 0 =? 2)%N && (full <=? len) && (len <=? length p) &&
  (negb strict || negb (data_length_at p 0 m =? 0) || (full <? len)).
Definition read_outcome (strict : bool) (m : nat) (p : bytes) : Res EapolSerdeError (KeyFrame bytes) :=
  if key_frame_complete strict m p then Ok (key_frame_in m p) else Err KeyFrameDeserializationFailure.
(** The packet at [e] of a frame [b] without FCS: first the MIC, then the key data, then the packet itself. *)
Definition packet_outcome (strict : bool) (hmac : bytes -> bytes -> bytes) (unwrap : bytes -> bytes -> option bytes) (kck kek : option bytes)
  (b : bytes) (temp e m : nat) : Res EapolSerdeError (KeyFrame bytes) :=
  let dl := data_length_at b e m in
  let full := e + 83 + m + dl in
  let after_mic :=
    if N.testbit (info_at b e) 12 then
      if length b <? e + 83 + m then Err BufferTooShort
      else if length b <? full then Panic
      else match kek with
           | None => Err MissingKey
           | Some key =>
             if dl <? 8 then Panic
             else if temp <? dl - 8 then Panic
             else match unwrap key (between_bytes b (e + 83 + m) full) with
                  | None => Err TemporaryBufferToShort
                  | Some plain => read_outcome strict m (skipn e (firstn (length b - 8) (decrypted_in_place b e m plain)))
                  end
           end
    else read_outcome strict m (skipn e b) in
  if N.testbit (info_at b e) 8 then
    match kck with
    | None => Err MissingKey
    | Some key =>
      if length b <? e + 81 + m then Err BufferTooShort
      else if 20 <? m then Panic
      else if list_eq_dec N.eq_dec (between_bytes b (e + 81) (e + 81 + m))
                (firstn m (hmac key (between_bytes b e (e + 81) ++ repeat 0%N m ++ skipn (e + 81 + m) b)))
           then after_mic else Err InvalidMic
    end
  else after_mic.
(** a frame [b] without FCS *)
Definition receive_outcome (strict : bool) (hmac : bytes -> bytes -> bytes) (unwrap : bytes -> bytes -> option bytes) (kck kek : option bytes)
  (b : bytes) (temp : nat) (akm : AkmType) : Res EapolSerdeError (KeyFrame bytes) :=
  match header_size b with
  | None => Err BufferTooShort
  | Some s =>
    let e := s + 8 in
    if length b <? e then Err BufferTooShort
    else if list_eq_dec N.eq_dec (between_bytes b (s + 6) e) [0x88; 0x8e]%N then
      if length b <? e + 5 then Panic
      else if length b <? e + 7 then Err BufferTooShort
      else match key_mic_len akm with
           | None => Err UnknownAkmSuite
           | Some m => packet_outcome strict hmac unwrap kck kek b temp e m
           end
    else Err EtherTypeNotEapol
  end.
