(** C17, C18, C48: the RSN element. *)
From Verif Require Import Base SpecBase BaseFacts Bits Layouts Enums Utf8 Elements SpecElements ElementTypes
  Suites Rsn SpecRsn RsnFacts RsnFacts2 RsnFacts3 RsnFacts4 RsnFacts5 RsnFacts6.

(** ** C17: round trip *)
(** Every element without gaps (lists given as arrays or received) is written as the fields of
    9.4.2.24 in order; [enc_rsn 1] is the standard's format, the crate's differs in the PMKID
    count ([enc_rsn 4]). *)
Theorem C17_format : forall (cfg : Cfg) x v, shows x v -> ok_view v -> gap_free v -> length (enc_rsn 4 v) <= 255 ->
  Writes (wr_rsn x) (enc_rsn 4 v).
Proof. exact @rsn_write. Qed.
Print Assumptions C17_format.
(** Without PMKIDs, and only then, that is the standard's format. *)
Theorem C17_standard_format : forall v, ok_view v -> length (enc_rsn 4 v) <= 255 ->
  (enc_rsn 4 v = enc_rsn 1 v <-> pmkid_count v = 0).
Proof. exact enc_not_standard. Qed.
Print Assumptions C17_standard_format.
(** Reading back gives an equal element. *)
Theorem C17_round_trip_partial : forall (cfg : Cfg) x v, shows x v -> ok_view v -> gap_free v -> length (enc_rsn 4 v) <= 255 ->
  end_not_empty_list v -> caps_readable v ->
  exists y, Writes (wr_rsn x) (enc_rsn 4 v) /\ ReadsAll rd_rsn (enc_rsn 4 v) y /\ shows y v /\ rsn_eqb x y = true.
Proof. exact @rsn_round_trip. Qed.
Print Assumptions C17_round_trip_partial.
(** [==] of the crate compares what the elements stand for *)
Theorem C17_equality : forall (cfg : Cfg) x y v w, shows x v -> shows y w -> ok_view v -> ok_view w ->
  (rsn_eqb x y = true <-> v = w).
Proof. exact @rsn_eqb_spec. Qed.
Print Assumptions C17_equality.
Example C17_ex : let v := mkView (Some Cs_Ccmp128) (Some [Cs_Ccmp128; Cs_Unknown 0x01f25000]) (Some [Ak_Psk; Ak_Sae]) (Some 0x80%N) (Some []) (Some Cs_BipCmac128) in
  shows (mkRsn (Some Cs_Ccmp128) (Some (Arr [Cs_Ccmp128; Cs_Unknown 0x01f25000])) (Some (Iter [0x00; 0x0f; 0xac; 2; 0x00; 0x0f; 0xac; 8]%N)) (Some 0x80%N) (Some (Arr [])) (Some Cs_BipCmac128)) v
  /\ ok_view v /\ gap_free v /\ pmkid_count v = 0 /\ length (enc_rsn 4 v) <= 255
  /\ enc_rsn 1 v = [1; 0; 0; 0x0f; 0xac; 4; 2; 0; 0; 0x0f; 0xac; 4; 0x00; 0x50; 0xf2; 1; 2; 0; 0; 0x0f; 0xac; 2; 0; 0x0f; 0xac; 8; 0x80; 0; 0; 0; 0; 0x0f; 0xac; 6]%N.
Proof.
  cbv zeta. split; [repeat split|]. split.
  { cbn [ok_view v_group v_pairwise v_akm v_caps v_pmkids v_group_mgmt opt_ok]. split; [exact I|]. split.
    { constructor; [exact I|]. constructor; [|constructor]. split; [reflexivity|]. intros d Hd E. destruct d; discriminate || (now apply Hd). }
    repeat split; repeat constructor. }
  split; [apply gap_free_eq; reflexivity|]. split; [reflexivity|]. split; [vm_compute; repeat constructor|reflexivity].
Qed.
(** The announced length is the written length if there are no PMKIDs. *)
Theorem C17_measure_partial : forall (cfg : Cfg) x v, shows x v -> ok_view v -> pmkid_count v = 0 ->
  rsn_measure x = length (enc_rsn 1 v).
Proof. exact @rsn_measure_ok. Qed.
Print Assumptions C17_measure_partial.
(** In general it is 12 bytes too small for every PMKID. *)
Theorem C17_measure_exact : forall (cfg : Cfg) x v, shows x v -> ok_view v ->
  rsn_measure x + 12 * pmkid_count v = length (enc_rsn 4 v).
Proof. exact @rsn_measure_spec. Qed.
Print Assumptions C17_measure_exact.
(** Refutations of the full claim. *)
Theorem C17_pmkid_measure_refuted : forall (cfg : Cfg), exists x v, shows x v /\ ok_view v /\ gap_free v /\
  exists bs, Writes (wr_rsn x) bs /\ rsn_measure x + 12 = length bs.
Proof. exact @pmkid_measure_wrong. Qed.
Print Assumptions C17_pmkid_measure_refuted.
Theorem C17_pmkid_count_refuted : forall (cfg : Cfg), exists x v, shows x v /\ ok_view v /\ gap_free v /\
  exists bs, Writes (wr_rsn x) bs /\ bs <> enc_rsn 1 v.
Proof. exact @pmkid_count_wrong. Qed.
Print Assumptions C17_pmkid_count_refuted.
(** What a chain of elements with such an element in it really tells: the last 12 bytes of every PMKID are outside of the element and are
    taken for the elements that follow, and the element itself is read without PMKIDs and without group management cipher suite. *)
Theorem C17_pmkid_spill : forall (cfg : Cfg) c is1 x is2 v raws1 raws2,
  shows x v -> ok_view v -> gap_free v -> 0 < pmkid_count v -> length (enc_rsn 4 v) - 12 * pmkid_count v <= 255 ->
  chain_items c = is1 ++ Typed (elem_of RsnElement x) :: is2 ->
  Forall2 item_element is1 raws1 -> Forall wf_item is1 -> Forall fits raws1 ->
  Forall2 item_element is2 raws2 -> Forall wf_item is2 -> Forall fits raws2 ->
  let body := enc_rsn 4 v in let told := length body - 12 * pmkid_count v in
  let block := enc_elements raws1 ++ [48%N; N.of_nat told] ++ body ++ enc_elements raws2 in
  Writes (wr_chain c) block /\ length (skipn told body) = 12 * pmkid_count v /\
  (forall es, raw_elements (skipn told body ++ enc_elements raws2) = Ok es ->
     raw_elements block = Ok (raws1 ++ mkRaw 48 (firstn told body) :: es)) /\
  (native_le = true -> exists y n, rd_rsn (firstn told body) = Ok (y, n) /\
     shows y (mkView (v_group v) (v_pairwise v) (v_akm v) (v_caps v) None None)).
Proof. exact @pmkid_spill. Qed.
Print Assumptions C17_pmkid_spill.
(** So a PMKID can announce an SSID nobody wrote, and hide one that was written. *)
Theorem C17_pmkid_ssid_refuted : forall (cfg : Cfg), exists p x v block n, ok_pmkid p /\ v_pmkids v = Some [p] /\ shows x v /\ ok_view v /\ gap_free v /\ pmkid_count v = 1 /\
  wr_chain (chain_of (Typed (elem_of RsnElement x)) []) (repeat 0%N 64) = Ok (block, n) /\
  get_first_element SSIDElement (firstn n block) = Ok (Some [70; 114; 101; 101; 32; 87; 73; 70; 73; 33]%N).
Proof. exact @pmkid_spill_found. Qed.
Print Assumptions C17_pmkid_ssid_refuted.
Theorem C17_pmkid_hides_refuted : forall (cfg : Cfg), exists p x v block n, ok_pmkid p /\ v_pmkids v = Some [p] /\ shows x v /\ ok_view v /\ gap_free v /\ pmkid_count v = 1 /\
  wr_chain (chain_of (Typed (elem_of RsnElement x)) [Typed (elem_of SSIDElement [84; 101; 115; 116]%N)]) (repeat 0%N 64) = Ok (block, n) /\
  get_first_element SSIDElement (firstn n block) = Ok None.
Proof. exact @pmkid_spill_hides. Qed.
Print Assumptions C17_pmkid_hides_refuted.
(** An element in the standard's format with one PMKID: no PMKID is found, part of it is taken as
    the group management cipher suite. *)
Theorem C17_pmkid_read_refuted : forall (cfg : Cfg), exists v y n, ok_view v /\ gap_free v /\
  rd_rsn (enc_rsn 1 v) = Ok (y, n) /\ n < length (enc_rsn 1 v)
  /\ rl_items rd_pmkid (match rsn_pmkids y with Some l => l | None => Arr [] end) = Ok [] /\ rsn_group_mgmt y <> v_group_mgmt v.
Proof. exact @pmkid_standard_misread. Qed.
Print Assumptions C17_pmkid_read_refuted.
(** The capabilities are written little endian and read in native order. *)
Theorem C17_big_endian_refuted : forall (cfg : Cfg), native_le = false -> exists x v bs y, shows x v /\ ok_view v /\ gap_free v /\
  Writes (wr_rsn x) bs /\ ReadsAll rd_rsn bs y /\ rsn_caps y <> rsn_caps x.
Proof. exact @big_endian_caps. Qed.
Print Assumptions C17_big_endian_refuted.
Theorem C17_strict_end_refuted : forall (cfg : Cfg), strict_end = true -> exists x v bs y, shows x v /\ ok_view v /\ gap_free v /\
  Writes (wr_rsn x) bs /\ ReadsAll rd_rsn bs y /\ rsn_eqb x y = false.
Proof. exact @empty_list_lost. Qed.
Print Assumptions C17_strict_end_refuted.
(** Arbitrary bytes: only version 1 is accepted; the fields are taken in order from the front and
    parsing stops at the first one which is not completely there. *)
Theorem C17_parse : forall (cfg : Cfg) bs, wf_bytes bs ->
  ((exists e, rd_rsn bs = Err e) /\ (forall rest, bs <> [1; 0]%N ++ rest)) \/
  exists y n tail, rd_rsn bs = Ok (y, n) /\ bs = raw_enc y ++ tail /\ stops_at y tail /\
    length (raw_enc y) <= n <= length (raw_enc y) + 2 /\ n <= length bs.
Proof. exact @rsn_parse. Qed.
Print Assumptions C17_parse.
Theorem C17_no_panic : forall (cfg : Cfg), NoPanic rd_rsn.
Proof. exact @rd_rsn_NP. Qed.
Print Assumptions C17_no_panic.
(** What was received is forwarded byte for byte. *)
Theorem C17_forward : forall (cfg : Cfg) bs y n, wf_bytes bs -> native_le = true -> (N.of_nat (length bs) < 65536)%N ->
  rd_rsn bs = Ok (y, n) -> exists tail, bs = raw_enc y ++ tail /\ stops_at y tail /\ Writes (wr_rsn y) (raw_enc y).
Proof. exact @rsn_parse_rewrite. Qed.
Print Assumptions C17_forward.
(** the element of the crate's documentation test, cut inside the AKM list *)
Example C17_parse_ex (cfg : Cfg) : rd_rsn [1; 0; 0; 0x0f; 0xac; 4; 1; 0; 0; 0x0f; 0xac; 4; 1; 0; 0; 0x0f]%N
  = Ok (mkRsn (Some Cs_Ccmp128) (Some (Iter [0; 0x0f; 0xac; 4]%N)) None None None None, 14).
Proof. destruct cfg as [[] [] []]; reflexivity. Qed.

(** ** C48: builder and constants *)
(** Whatever sequence of builder calls made it, an element has no gaps, so it is written in full. *)
Theorem C48_builder : forall x, built x -> exists v, array_view x = Some v /\ gap_free v.
Proof. exact built_array. Qed.
Print Assumptions C48_builder.
Theorem C48_view : forall x v, array_view x = Some v -> shows x v.
Proof. exact array_view_shows. Qed.
Print Assumptions C48_view.
(** the value given to a call is the one in the element *)
Theorem C48_fields : forall x, (forall g, rsn_group (with_group_data_cipher_suite x g) = Some g) /\
  (forall l, rsn_pairwise (with_pairwise_cipher_suite_list x l) = Some (Arr l)) /\
  (forall l, rsn_akm (with_akm_list x l) = Some (Arr l)) /\ (forall c, rsn_caps (with_rsn_capabilities x c) = Some c) /\
  (forall l, rsn_pmkids (with_pmkid_list x l) = Some (Arr l)) /\
  (forall g, rsn_group_mgmt (with_group_management_cipher_suite x g) = Some g).
Proof. exact built_fields. Qed.
Print Assumptions C48_fields.
Example C48_builder_ex : built (with_group_management_cipher_suite (with_akm_list rsn_new [Ak_Sae]) Cs_BipCmac128).
Proof. repeat constructor. Qed.
(** After every sequence of calls each field has the value given last; a field that was never given has its
    default if a later field was, and is absent otherwise ([field_after], SpecRsn.v). *)
Theorem C48_history : forall calls,
  fold_left rsn_call calls rsn_new =
  mkRsn (field_after arg_group 0 Cs_Ccmp128 calls) (field_after arg_pairwise 1 (Arr []) calls)
    (field_after arg_akm 2 (Arr []) calls) (field_after arg_caps 3 0%N calls)
    (field_after arg_pmkids 4 (Arr []) calls) (field_after arg_group_mgmt 5 Cs_Ccmp128 calls).
Proof. exact builder_history. Qed.
Print Assumptions C48_history.
Example C48_history_ex : let calls := [SetAkm [Ak_Psk]; SetGroup Cs_Tkip; SetAkm [Ak_Sae]; SetPairwise [Cs_Tkip]] in
  field_after arg_group 0 Cs_Ccmp128 calls = Some Cs_Tkip /\ field_after arg_pairwise 1 (Arr []) calls = Some (Arr [Cs_Tkip]) /\
  field_after arg_akm 2 (Arr []) calls = Some (Arr [Ak_Sae]) /\ field_after arg_caps 3 0%N calls = None /\
  field_after arg_akm 2 (Arr []) [SetCaps 5%N] = Some (Arr []).
Proof. repeat split; reflexivity. Qed.
(** The bytes of the predefined elements: version 1, group cipher, pairwise ciphers, AKMs (2 PSK, 8 SAE, 18 OWE),
    capabilities and, for WPA3, no PMKIDs and BIP-CMAC-128. *)
Theorem C48_constants_bytes : forall (cfg : Cfg),
  Writes (wr_rsn WPA_PERSONAL) [1; 0; 0; 15; 172; 2; 1; 0; 0; 15; 172; 2; 1; 0; 0; 15; 172; 2; 0; 0]%N /\
  Writes (wr_rsn WPA_WPA2_PERSONAL) [1; 0; 0; 15; 172; 2; 2; 0; 0; 15; 172; 2; 0; 15; 172; 4; 1; 0; 0; 15; 172; 2; 0; 0]%N /\
  Writes (wr_rsn WPA2_PERSONAL) [1; 0; 0; 15; 172; 4; 1; 0; 0; 15; 172; 4; 1; 0; 0; 15; 172; 2; 0; 0]%N /\
  Writes (wr_rsn WPA2_WPA3_PERSONAL) [1; 0; 0; 15; 172; 4; 1; 0; 0; 15; 172; 4; 2; 0; 0; 15; 172; 2; 0; 15; 172; 8; 192; 0]%N /\
  Writes (wr_rsn WPA3_PERSONAL) [1; 0; 0; 15; 172; 4; 1; 0; 0; 15; 172; 4; 1; 0; 0; 15; 172; 8; 192; 0; 0; 0; 0; 15; 172; 6]%N /\
  Writes (wr_rsn RSN_OWE) [1; 0; 0; 15; 172; 4; 1; 0; 0; 15; 172; 4; 1; 0; 0; 15; 172; 18; 192; 0]%N.
Proof. exact @constants_bytes. Qed.
Print Assumptions C48_constants_bytes.
(** The element for networks open to WPA2 and WPA3 stations requires management frame protection, which the stations
    that know only WPA2 need not have. *)
Theorem C48_transition_refuted :
  exists caps, rsn_caps WPA2_WPA3_PERSONAL = Some caps /\ rsn_akm WPA2_WPA3_PERSONAL = Some (Arr [Ak_Psk; Ak_Sae]) /\ mfpr caps = true.
Proof. exact transition_requires. Qed.
Print Assumptions C48_transition_refuted.
(** All predefined elements except OWE are complete and have the announced length. *)
Theorem C48_constants_partial : forall x, In x [WPA_PERSONAL; WPA_WPA2_PERSONAL; WPA2_PERSONAL; WPA2_WPA3_PERSONAL; WPA3_PERSONAL] ->
  exists v, array_view x = Some v /\ ok_view v /\ gap_free v /\ pmkid_count v = 0 /\ length (enc_rsn 1 v) <= 255.
Proof. exact constants_array. Qed.
Print Assumptions C48_constants_partial.
(** The predefined OWE element has a gap: its group management cipher suite is not written, but its
    length field counts it, so a reader takes the first four bytes of the following element as its end. *)
Theorem C48_owe_refuted : forall (cfg : Cfg), ~ gap_free owe_view /\ shows RSN_OWE owe_view /\
  exists bs, Writes (wr_rsn RSN_OWE) bs /\ rsn_measure RSN_OWE = length bs + 4 /\
  Writes (wr_wrapped (elem_of RsnElement RSN_OWE)) (48%N :: N.of_nat (length bs + 4) :: bs).
Proof. exact @owe_gap. Qed.
Print Assumptions C48_owe_refuted.

(** ** C18: tables *)
(** Selectors are kept: every 32 bit selector is named and comes back; named suites have the
    standard's OUI and number; [Unknown] is used for the others only. *)
Theorem C18_cipher_selectors : forall sel, (sel < 2 ^ 32)%N ->
  enc_cipher (cipher_from_selector sel) = le_bytes 4 sel /\ ok_cipher (cipher_from_selector sel)
  /\ cipher_selector (cipher_from_selector sel) = sel.
Proof. exact cipher_cases. Qed.
Print Assumptions C18_cipher_selectors.
Theorem C18_cipher_suites : forall c, ok_cipher c -> cipher_from_selector (cipher_selector c) = c.
Proof. exact cipher_from_to. Qed.
Print Assumptions C18_cipher_suites.
Theorem C18_akm_selectors : forall sel, (sel < 2 ^ 32)%N ->
  enc_akm (akm_from_selector sel) = le_bytes 4 sel /\ ok_akm (akm_from_selector sel)
  /\ akm_selector (akm_from_selector sel) = sel.
Proof. exact akm_cases. Qed.
Print Assumptions C18_akm_selectors.
Theorem C18_akm_suites : forall c, ok_akm c -> akm_from_selector (akm_selector c) = c.
Proof. exact akm_from_to. Qed.
Print Assumptions C18_akm_suites.
Example C18_selectors_ex : cipher_from_selector 0x04ac0f00 = Cs_Ccmp128 /\ cipher_from_selector 0x01f25000 = Cs_Unknown 0x01f25000
  /\ akm_from_selector 0x12ac0f00 = Ak_OpportunisticWirelessEncryption.
Proof. repeat split; reflexivity. Qed.
(** Key and MIC lengths. *)
Theorem C18_cipher_lengths : forall c, ok_cipher c -> tk_len c = standard_tk_len c /\ mic_len c = standard_mic_len c.
Proof. exact cipher_lengths. Qed.
Print Assumptions C18_cipher_lengths.
Theorem C18_akm_lengths : forall a,
  (akm_128 a -> kck_len a = Some 16 /\ kek_len a = Some 16 /\ key_mic_len a = Some 16) /\
  (akm_192 a -> kck_len a = Some 24 /\ kek_len a = Some 32 /\ key_mic_len a = Some 24).
Proof. exact akm_lengths. Qed.
Print Assumptions C18_akm_lengths.
(** Suites from OWE (18) on and unknown ones have no lengths at all (so no EAPOL key frames can be
    handled with them). *)
Theorem C18_akm_no_lengths : forall a, ok_akm a ->
  match akm_number a with Some t => t = 0%N \/ (17 < t)%N | None => True end ->
  kck_len a = None /\ kek_len a = None /\ key_mic_len a = None /\ kck2_len a = None /\ kek2_len a = None.
Proof. exact akm_no_lengths. Qed.
Print Assumptions C18_akm_no_lengths.
(** All suites and all five lengths. *)
Theorem C18_akm_table : forall a, ok_akm a -> (kck_len a, kek_len a, key_mic_len a, kck2_len a, kek2_len a) = akm_row a.
Proof. exact akm_rows. Qed.
Print Assumptions C18_akm_table.
Example C18_akm_table_ex : ok_akm Ak_FTOverFilsSha384Aes512
  /\ akm_row Ak_FTOverFilsSha384Aes512 = (None, Some 64, Some 24, Some 24, Some 32).
Proof. split; reflexivity. Qed.
Example C18_lengths_ex : tk_len Cs_Ccmp128 = Some 16 /\ akm_128 Ak_Psk /\ akm_192 Ak_WpaSha384SuiteB /\ ok_akm (Ak_Unknown 5).
Proof.
  split; [reflexivity|]. split; [cbn; tauto|]. split; [cbn; tauto|]. split; [reflexivity|]. intros d Hd E. destruct d; discriminate || (now apply Hd).
Qed.
(** Management frame protection: a positive answer is right ... *)
Theorem C18_compatible_sound_partial : forall x y, of_is_compatible x y = true -> compatible x y.
Proof. exact mfp_compat_sound. Qed.
Print Assumptions C18_compatible_sound_partial.
Example C18_compatible_ex : of_is_compatible Of_Disabled Of_Disabled = true /\ of_is_compatible Of_Required Of_Required = true.
Proof. split; reflexivity. Qed.
(** ... but compatible stations are rejected. *)
Theorem C18_compatible_refuted : exists x y, compatible x y /\ of_is_compatible x y = false.
Proof. exact mfp_compat_incomplete. Qed.
Print Assumptions C18_compatible_refuted.
Theorem C18_compatible_symmetric : forall x y, of_is_compatible x y = of_is_compatible y x.
Proof. exact mfp_sym. Qed.
Print Assumptions C18_compatible_symmetric.
(** The pairs that are accepted: two stations of which none is capable, or which both require it. *)
Theorem C18_compatible_exact : forall x y, of_is_compatible x y = true <->
  (of_is_capable x = false /\ of_is_capable y = false) \/ (of_is_required x = true /\ of_is_required y = true).
Proof. exact compatible_table. Qed.
Print Assumptions C18_compatible_exact.
(** The encoding: "required" and "disabled" are written as the standard says ... *)
Theorem C18_mfp_bits_partial : forall caps,
  mfpr (with_mfp_config Of_Required caps) = true /\ mfpc (with_mfp_config Of_Required caps) = true /\
  mfpr (with_mfp_config Of_Disabled caps) = false /\ mfpc (with_mfp_config Of_Disabled caps) = false /\
  (mfp_config caps = Of_Disabled <-> mfpr caps = false /\ mfpc caps = false).
Proof. exact mfp_required_bits. Qed.
Print Assumptions C18_mfp_bits_partial.
(** ... but "capable" is not, "required" is not read back, and a station that requires protection
    is read as not capable. *)
Theorem C18_mfp_capable_refuted : exists x, of_is_capable x = true /\ mfpc (with_mfp_config x 0) = false.
Proof. exact mfp_standard. Qed.
Print Assumptions C18_mfp_capable_refuted.
Theorem C18_mfp_round_trip_refuted : exists x caps, (caps < 65536)%N /\ mfp_config (with_mfp_config x caps) <> x.
Proof. exact mfp_written_read. Qed.
Print Assumptions C18_mfp_round_trip_refuted.
Theorem C18_mfp_received_refuted : exists caps, mfpr caps = true /\ mfpc caps = true /\ of_is_capable (mfp_config caps) = false.
Proof. exact mfp_received. Qed.
Print Assumptions C18_mfp_received_refuted.
(** The whole encoding, both ways; the other bits are not touched. *)
Theorem C18_mfp_exact : forall caps x,
  mfp_config caps = match mfpc caps, mfpr caps with
    | false, false => Of_Disabled | false, true => Of_Capable | true, false => Of_Required | true, true => Of_Invalid end /\
  mfpr (with_mfp_config x caps) = match x with Of_Disabled | Of_Invalid => false | _ => true end /\
  mfpc (with_mfp_config x caps) = match x with Of_Disabled | Of_Capable => false | _ => true end /\
  forall i, i <> 6%N -> i <> 7%N -> N.testbit (with_mfp_config x caps) i = N.testbit caps i.
Proof. exact (fun caps x => conj (mfp_table caps) (mfp_written x caps)). Qed.
Print Assumptions C18_mfp_exact.
