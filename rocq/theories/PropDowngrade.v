(** C92: what was said in the clear about the security cannot be changed by others without notice. The specification is SpecDowngrade.v. *)
From Verif Require Import Base SpecBase Elements SpecElements ElementTypes Suites Rsn SpecRsn Mgmt Data SpecData Eapol SpecEapol KeyMgmt SpecKeyMgmt KeyMgmtFacts6 SpecDelivery SpecHandshake Sha1 Aes
  SpecReplay ReplayFacts2 SpecDowngrade DowngradeFacts.

(** Whatever was heard in the clear, and whatever is on the air during the handshake: a receiver that compares goes on if and only if what it heard in the clear had the
    RSN element of the other side. *)
Theorem C92_goes_on : forall (cfg : Cfg) hmac wrap unwrap, hmac_sha1 hmac -> key_wrap wrap unwrap ->
  forall kck kek temp akm with_fcs wanted, key_mic_len akm = Some 16 ->
  forall sent air last rsn, Forall wf_bytes air -> Forall ok_sent sent -> increasing (filter (chosen wanted) sent) ->
  Forall (fun b => ~ is_forged hmac kck with_fcs sent b) air ->
  Forall (confirms wrap kek rsn) (filter (chosen wanted) sent) ->
  forall clear k, In k (receiver (fun b => deserialize_eapol hmac unwrap (Some kck) (Some kek) b temp akm with_fcs) wanted last air) ->
  (goes_on clear (key_data k) = true <-> genuine clear rsn).
Proof. exact @protected. Qed.
Print Assumptions C92_goes_on.
(** And then the security it has read there is the other side's. (The securities are those that the crate can carry, C17.) *)
Theorem C92_same_security_partial : forall (cfg : Cfg) hmac wrap unwrap, hmac_sha1 hmac -> key_wrap wrap unwrap ->
  forall kck kek temp akm with_fcs wanted, key_mic_len akm = Some 16 ->
  forall sent air last v rsn, Forall wf_bytes air -> Forall ok_sent sent -> increasing (filter (chosen wanted) sent) ->
  Forall (fun b => ~ is_forged hmac kck with_fcs sent b) air ->
  security_element v rsn -> Forall (confirms wrap kek rsn) (filter (chosen wanted) sent) ->
  forall clear k, In k (receiver (fun b => deserialize_eapol hmac unwrap (Some kck) (Some kek) b temp akm with_fcs) wanted last air) ->
  goes_on clear (key_data k) = true -> exists y, get_first_element RsnElement clear = Ok (Some y) /\ shows y v.
Proof. exact @protected_security. Qed.
Print Assumptions C92_same_security_partial.
(** What [serialize_eapol_data_frame] gives for a chain with an RSN element is such a frame. *)
Theorem C92_sent : forall (cfg : Cfg) hmac wrap unwrap, hmac_sha1 hmac -> key_wrap wrap unwrap ->
  forall kck kek h oui (k : KeyFrame Container) c es rsn buffer temp buf' n,
  ok_data_header h -> length oui = 3 -> wf_bytes oui -> chain_of_elements c es -> wf_bytes (enc_elements es) -> key_data k = c_chain c -> first_rsn es rsn ->
  let sent := with_data k (sent_data wrap kek (key_information k) (enc_elements es)) in
  ok_key_frame (with_data k (enc_elements es)) -> ok_key_frame sent -> key_mic k = repeat 0%N 16 -> N.testbit (key_information k) 8 = true ->
  length (enc_eapol h oui 0x888e (with_data k (enc_elements es))) + slack <= length buffer ->
  serialize_eapol hmac wrap (Some kck) (Some kek) (h, Some (mkSnap oui 0x888e k)) buffer temp = Ok (buf', n) ->
  firstn n buf' = enc_eapol h oui 0x888e (on_air hmac kck sent) /\ ok_sent sent /\ confirms wrap kek rsn sent.
Proof. exact @confirming. Qed.
Print Assumptions C92_sent.
(** hypotheses of [C92_sent]: [C62_ex], whose chain has an RSN element. A third message, encrypted, behind junk: *)
Example C92_ex : forall (cfg : Cfg), key_mic_len Ak_Psk = Some 16 /\
  Forall wf_bytes third_air /\ Forall ok_sent [third_sent] /\ increasing (filter (chosen from_authenticator) [third_sent]) /\
  Forall (fun b => ~ is_forged hmac_sha1_of test_kck false [third_sent] b) third_air /\
  Forall (confirms aes_wrap test_kek offered_element) (filter (chosen from_authenticator) [third_sent]) /\ security_element offered offered_element.
Proof. exact (fun cfg => conj eq_refl (@third_ok cfg)). Qed.
(** who has heard the true beacons goes on, who has heard the false ones does not *)
Example C92_compared_ex : forall (cfg : Cfg), receiver test_hear from_authenticator None third_air = third_received /\ length third_received = 1 /\
  map (fun k => (goes_on true_beacon (key_data k), goes_on false_beacon (key_data k))) third_received = [(true, false)].
Proof. exact (fun cfg => conj third_taken third_compared). Qed.
(** Missing is: an RSN element that the crate cannot read is skipped by the lookup that reads, but not by the one that does not. So an attacker can put another one behind
    it: the comparison succeeds, and the security that was read in the clear is the attacker's. *)
Theorem C92_unreadable_refuted : forall (cfg : Cfg), exists rsn s clear y, confirms aes_wrap test_kek rsn s /\ goes_on clear (key_data s) = true /\ genuine clear rsn /\
  parse_raw_element RsnElement rsn = Ok None /\
  get_first_element RsnElement clear = Ok (Some y) /\ shows y (mkView (Some Cs_Tkip) (Some [Cs_Tkip]) (Some [Ak_Psk]) None None None).
Proof. exact @unreadable. Qed.
Print Assumptions C92_unreadable_refuted.
