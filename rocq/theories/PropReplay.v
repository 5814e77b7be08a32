(** C78: key frames received over any length of time. The specification is SpecReplay.v. *)
From Verif Require Import Base SpecBase BaseFacts Suites Rsn Mgmt SpecMgmt Data SpecData Eapol SpecEapol KeyMgmt SpecKeyMgmt KeyMgmtFacts6 SpecHandshake SpecArrival Sha1 Aes
  SpecReplay ReplayFacts ReplayFacts2.

(** Whatever is heard, in whatever order and how often: unless something is forged, what the receiver takes are frames that were sent (by anybody with the keys) and that it
    wants, each at most once and in the order of their counters, with the fields and the key data they were sent with. *)
Theorem C78_in_order : forall (cfg : Cfg) hmac wrap unwrap, hmac_sha1 hmac -> key_wrap wrap unwrap ->
  forall kck kek temp akm with_fcs wanted, key_mic_len akm = Some 16 ->
  forall sent air last, Forall wf_bytes air -> Forall ok_sent sent -> increasing (filter (chosen wanted) sent) ->
  Forall (fun b => ~ is_forged hmac kck with_fcs sent b) air ->
  exists l, subsequence l (filter (chosen wanted) sent) /\
    Forall2 (delivers hmac unwrap kck kek) l (receiver (fun b => deserialize_eapol hmac unwrap (Some kck) kek b temp akm with_fcs) wanted last air) /\
    Forall (fun s => newer last (key_replay_counter s) = true) l.
Proof. exact @in_order. Qed.
Print Assumptions C78_in_order.
(** And if every frame that is sent gets through before the next one is sent, and nothing that is heard makes the receiver panic, then it takes exactly the frames
    that were sent and that it wants, whatever else is heard. *)
Theorem C78_all_arrive : forall (cfg : Cfg) hmac wrap unwrap, hmac_sha1 hmac -> key_wrap wrap unwrap ->
  forall kck kek temp akm with_fcs wanted, key_mic_len akm = Some 16 ->
  forall rounds : History, Forall wf_bytes (concat (map snd rounds)) -> Forall ok_sent (map fst rounds) ->
  increasing (filter (chosen wanted) (map fst rounds)) -> nothing_forged hmac kck with_fcs [] rounds ->
  Forall (fun b => deserialize_eapol hmac unwrap (Some kck) kek b temp akm with_fcs <> Panic) (concat (map snd rounds)) ->
  Forall (fun r => chosen wanted (fst r) = true -> gets_through strict_end hmac unwrap kck kek temp with_fcs (fst r) (snd r)) rounds ->
  Forall2 (delivers hmac unwrap kck kek) (filter (chosen wanted) (map fst rounds))
    (receiver (fun b => deserialize_eapol hmac unwrap (Some kck) kek b temp akm with_fcs) wanted None (concat (map snd rounds))).
Proof. exact @all_arrive. Qed.
Print Assumptions C78_all_arrive.
(** The panics matter: a frame without MIC that nobody with the keys sent ends the receiver. *)
Theorem C78_panic_refuted : forall (cfg : Cfg), ~ (forall kck kek temp akm with_fcs wanted (rounds : History), key_mic_len akm = Some 16 ->
  Forall wf_bytes (concat (map snd rounds)) -> Forall ok_sent (map fst rounds) -> increasing (filter (chosen wanted) (map fst rounds)) ->
  nothing_forged hmac_sha1_of kck with_fcs [] rounds ->
  Forall (fun r => chosen wanted (fst r) = true -> gets_through strict_end hmac_sha1_of aes_unwrap kck kek temp with_fcs (fst r) (snd r)) rounds ->
  Forall2 (delivers hmac_sha1_of aes_unwrap kck kek) (filter (chosen wanted) (map fst rounds))
    (receiver (fun b => deserialize_eapol hmac_sha1_of aes_unwrap (Some kck) kek b temp akm with_fcs) wanted None (concat (map snd rounds)))).
Proof. exact @crash. Qed.
Print Assumptions C78_panic_refuted.
(** And so does the bit that announces the MIC: with a KCK given and nothing ever sent with it, a frame without that bit is accepted. *)
Theorem C78_unannounced_refuted : forall (cfg : Cfg), ~ (forall kck kek b temp akm with_fcs k, key_mic_len akm = Some 16 -> wf_bytes b ->
  ~ is_forged hmac_sha1_of kck with_fcs [] b -> deserialize_eapol hmac_sha1_of aes_unwrap (Some kck) kek b temp akm with_fcs <> Ok k).
Proof. exact @unannounced. Qed.
Print Assumptions C78_unannounced_refuted.
(** What [serialize_eapol_data_frame] gives is such a sent frame, and what is delivered for it has the fields and the key data of the caller. *)
Theorem C78_sent : forall (cfg : Cfg) hmac wrap unwrap, hmac_sha1 hmac -> key_wrap wrap unwrap ->
  forall kck kek h oui (k : KeyFrame Container) kd buffer temp buf' n,
  ok_data_header h -> length oui = 3 -> wf_bytes oui -> Writes (c_write (key_data k)) kd -> wf_bytes kd ->
  let sent := with_data k (sent_data wrap kek (key_information k) kd) in
  ok_key_frame (with_data k kd) -> ok_key_frame sent -> key_mic k = repeat 0%N 16 -> N.testbit (key_information k) 8 = true ->
  length (enc_eapol h oui 0x888e (with_data k kd)) + slack <= length buffer ->
  serialize_eapol hmac wrap (Some kck) (Some kek) (h, Some (mkSnap oui 0x888e k)) buffer temp = Ok (buf', n) ->
  firstn n buf' = enc_eapol h oui 0x888e (on_air hmac kck sent) /\ ok_sent sent /\
  forall k', delivers hmac unwrap kck (Some kek) sent k' -> same_fields k k' /\ key_data k' = received_data (key_information k) kd.
Proof. exact @sent_on_air. Qed.
Print Assumptions C78_sent.
(** hypotheses of [C78_sent]: [C41_ex]. A history with junk, an altered frame, replays and a frame of the station itself: *)
Example C78_ex : forall (cfg : Cfg), key_mic_len Ak_Psk = Some 16 /\
  Forall wf_bytes (concat (map snd test_history)) /\ Forall ok_sent (map fst test_history) /\
  increasing (filter (chosen from_authenticator) (map fst test_history)) /\
  nothing_forged hmac_sha1_of test_kck false [] test_history /\
  Forall (fun b => test_hear b <> Panic) (concat (map snd test_history)) /\
  Forall (fun r => chosen from_authenticator (fst r) = true -> gets_through strict_end hmac_sha1_of aes_unwrap test_kck (Some test_kek) 100 false (fst r) (snd r)) test_history.
Proof. intros cfg. split; [reflexivity|]. exact (@test_history_ok cfg). Qed.
Example C78_received_ex : forall (cfg : Cfg), length (concat (map snd test_history)) = 8 /\
  map (fun k => (key_replay_counter k, key_data k)) (receiver test_hear from_authenticator None (concat (map snd test_history))) =
    [(1, [48; 2; 1; 0]); (2, pad_key_data second_data)]%N.
Proof. intros cfg. split; [reflexivity|]. exact (@test_received cfg). Qed.
