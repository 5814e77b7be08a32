(** C62: the four-way handshake as a whole. *)
From Verif Require Import Base SpecBase BaseFacts Enums Common Elements SpecElements ElementTypes SpecElementTypes ElementTypesFacts ElementTypesFacts3 Suites Mgmt SpecMgmt
  Data SpecData Rsn Eapol SpecEapol KeyMgmt SpecKeyMgmt Sha1 Aes AesFacts KeyMgmtFacts6 SpecDelivery SpecHandshake HandshakeFacts.

(** Authenticator and supplicant, each with its own address and nonce first, get the same keys. *)
Theorem C62_keys : forall hmac pmk aa spa anonce snonce n akm cipher kl el tl, hmac_sha1 hmac ->
  kck_len akm = Some kl -> kek_len akm = Some el -> tk_len cipher = Some tl -> kl + el + tl <= n ->
  exists kck kek tk,
    partition_ptk (derive_ptk hmac pmk aa spa anonce snonce n) akm cipher = Some (kck, kek, tk) /\
    partition_ptk (derive_ptk hmac pmk spa aa snonce anonce n) akm cipher = Some (kck, kek, tk) /\
    length kck = kl /\ length kek = el /\ length tk = tl.
Proof. exact keys_agree. Qed.
Print Assumptions C62_keys.
(** And each message, sent with the keys of one and received with the keys of the other, arrives: the same fields, and key data in which every lookup
    finds the elements of the sender's chain, encrypted or not. (MICs of 16 bytes; the MIC field of the caller is zero; [key_data_id]: lookups
    the padding cannot satisfy.) *)
Theorem C62_handshake_partial : forall (cfg : Cfg) hmac wrap unwrap pmk aa spa anonce snonce n akm cipher kl el tl, hmac_sha1 hmac -> key_wrap wrap unwrap ->
  kck_len akm = Some kl -> kek_len akm = Some el -> tk_len cipher = Some tl -> kl + el + tl <= n -> key_mic_len akm = Some 16 ->
  exists kck kek tk,
    partition_ptk (derive_ptk hmac pmk aa spa anonce snonce n) akm cipher = Some (kck, kek, tk) /\
    partition_ptk (derive_ptk hmac pmk spa aa snonce anonce n) akm cipher = Some (kck, kek, tk) /\
    forall h oui (k : KeyFrame Container) c raws buffer temp temp',
    ok_data_header h -> length oui = 3 -> wf_bytes oui ->
    chain_of_elements c raws -> wf_bytes (enc_elements raws) -> (N.of_nat (length (enc_elements raws)) < 65000)%N ->
    key_data k = c_chain c -> ok_key_frame (with_data k (enc_elements raws)) -> key_mic k = repeat 0%N 16 ->
    length (enc_elements raws) + 24 <= temp -> length (enc_elements raws) + 16 <= temp' ->
    length (enc_eapol h oui 0x888e (with_data k (enc_elements raws))) + 24 + slack <= length buffer ->
    exists buf' m k',
      serialize_eapol hmac wrap (Some kck) (Some kek) (h, Some (mkSnap oui 0x888e k)) buffer temp = Ok (buf', m) /\
      deserialize_eapol hmac unwrap (Some kck) (Some kek) (firstn m buf') temp' akm false = Ok k' /\
      same_fields k k' /\
      key_data k' = received_data (key_information k) (enc_elements raws) /\
      forall V Q (t : ElementType V Q) okv cv os,
        lookup_id (et_id t) -> key_data_id (et_id t) -> NoPanic (et_read t) -> RoundTrip t okv cv ->
        holds_values t okv (chain_items c) os ->
        get_matching_elements t (key_data k') = Ok (map cv (somes os)) /\
        get_first_element t (key_data k') = Ok (option_map cv (hd_error (somes os))).
Proof. exact @handshake. Qed.
Print Assumptions C62_handshake_partial.
(** The padding of encrypted key data is not removed. For lookups by other identifiers it makes no difference ... *)
Theorem C62_padding_partial : forall (cfg : Cfg) V Q (t : ElementType V Q) raws, lookup_id (et_id t) -> key_data_id (et_id t) -> Forall fits raws -> end_visible raws [] ->
  get_matching_elements t (pad_key_data (enc_elements raws)) = get_matching_elements t (enc_elements raws) /\
  get_first_element t (pad_key_data (enc_elements raws)) = get_first_element t (enc_elements raws).
Proof. exact @padding_transparent. Qed.
Print Assumptions C62_padding_partial.
(** ... but a lookup of the SSID finds an empty one that nobody sent. *)
Theorem C62_padding_refuted : forall (cfg : Cfg), strict_end = false -> exists raws, Forall fits raws /\ end_visible raws [] /\
  get_first_element SSIDElement (enc_elements raws) = Ok None /\ get_first_element SSIDElement (pad_key_data (enc_elements raws)) = Ok (Some []).
Proof. exact @padding_ssid. Qed.
Print Assumptions C62_padding_refuted.
(** Exactly which elements the padding adds for every lookup and iteration: one for every two bytes of it. *)
Theorem C62_padding_elements : forall (cfg : Cfg) raws, Forall fits raws -> end_visible raws [] ->
  raw_elements (pad_key_data (enc_elements raws)) =
    Ok (raws ++ padding_elements ((length (pad_key_data (enc_elements raws)) - length (enc_elements raws) - if strict_end then 1 else 0) / 2)).
Proof. exact @padding_added. Qed.
Print Assumptions C62_padding_elements.
(** So key data without SSID has one when it arrives if and only if at least four bytes of padding are needed. *)
Theorem C62_padding_ssid : forall (cfg : Cfg) raws, strict_end = false -> Forall fits raws -> Forall (fun raw => re_type raw <> 0%N) raws ->
  get_first_element SSIDElement (enc_elements raws) = Ok None /\
  get_first_element SSIDElement (pad_key_data (enc_elements raws)) =
    Ok (if 4 <=? length (pad_key_data (enc_elements raws)) - length (enc_elements raws) then Some [] else None).
Proof. exact @padding_ssid_exact. Qed.
Print Assumptions C62_padding_ssid.
Example C62_padding_ex (cfg : Cfg) : let raws := [mkRaw 48 [1; 0]]%N in
  Forall fits raws /\ end_visible raws [] /\ Forall (fun raw => re_type raw <> 0%N) raws /\
  length (pad_key_data (enc_elements raws)) - length (enc_elements raws) = 12 /\
  padding_elements 3 = [mkRaw 221 []; mkRaw 0 []; mkRaw 0 []]%N.
Proof.
  cbv zeta. split; [repeat constructor; unfold fits; cbn; lia|]. split; [right; right; discriminate|].
  split; [repeat constructor; discriminate|]. split; reflexivity.
Qed.
(** the element types of key data qualify *)
Theorem C62_kdes : forall (cfg : Cfg),
  (lookup_id (et_id GtkKde) /\ key_data_id (et_id GtkKde) /\ RoundTrip GtkKde ok_gtk (fun x => x)) /\
  (lookup_id (et_id MacAddressKde) /\ key_data_id (et_id MacAddressKde) /\ RoundTrip MacAddressKde (byte_array 6) (fun x => x)) /\
  (lookup_id (et_id PmkidKde) /\ key_data_id (et_id PmkidKde) /\ RoundTrip PmkidKde (byte_array 16) (fun x => x)) /\
  (lookup_id (et_id NonceKde) /\ key_data_id (et_id NonceKde) /\ RoundTrip NonceKde (byte_array 32) (fun x => x)).
Proof. exact @kdes_qualify. Qed.
Print Assumptions C62_kdes.
Example C62_ex (cfg : Cfg) :
  let c := chain_of (Typed (elem_of PmkidKde (repeat 7%N 16))) [RawItem (mkRaw 48 [1; 0]%N)] in
  let raws := [mkRaw 221 ([0; 15; 172; 4] ++ repeat 7 16); mkRaw 48 [1; 0]]%N in
  chain_of_elements c raws /\ holds_values PmkidKde (byte_array 16) (chain_items c) [Some (repeat 7%N 16); None] /\
  kck_len Ak_Psk = Some 16 /\ kek_len Ak_Psk = Some 16 /\ tk_len Cs_Ccmp128 = Some 16 /\ key_mic_len Ak_Psk = Some 16 /\
  ok_key_frame (with_data (with_data (test_key_frame (repeat 0%N 16) []) (c_chain c)) (enc_elements raws)).
Proof. exact (handshake_example cfg). Qed.
