(** C72, C73: other machines and other builds. *)
From Verif Require Import Base SpecBase Bits Layouts Enums Common SpecCommon Crc Elements SpecElements ElementTypes Utf8 Tim Rsn Mgmt SpecMgmt CryptoHeader Amsdu Data SpecData
  Control Generic Suites Eapol KeyMgmt KeyMgmtState Michael Accessors Text SpecPortable PortableFacts RelayFacts.

(** ** C72: byte order *)
(** These functions are the same functions on little endian and on big endian machines. *)
Theorem C72_elements_partial :
  any_machine (fun c => @SSIDElement c) /\ any_machine (fun c => @MeshIDElement c) /\ any_machine (fun c => @SupportedRatesElement c) /\
  any_machine (fun c => @ExtendedSupportedRatesElement c) /\ any_machine (fun c => @DSSSParameterSetElement c) /\ any_machine (fun c => @IBSSParameterSetElement c) /\
  any_machine (fun c => @BSSLoadElement c) /\ any_machine (fun c => @TIMElement c) /\ any_machine (fun c => @HTCapabilitiesElement c) /\
  any_machine (fun c => @HTOperationElement c) /\ any_machine (fun c => @VHTCapabilitiesElement c) /\ any_machine (fun c => @VHTOperationElement c) /\
  any_machine (fun c => @MeshConfigurationElement c) /\ any_machine (fun c => @OWETransitionModeElement c) /\ any_machine (fun c => @VendorSpecificElement c) /\
  any_machine (fun c => @MacAddressKde c) /\ any_machine (fun c => @PmkidKde c) /\ any_machine (fun c => @NonceKde c) /\ any_machine (fun c => @LifetimeKde c) /\
  any_machine (fun c => @GtkKde c) /\ any_machine (fun c => @wr_rsn c) /\ any_machine (fun c => @rsn_measure c) /\ any_machine (fun c => @raw_elements c) /\
  any_machine (fun c => @get_first_element_raw c) /\ any_machine (fun c => @get_matching_elements_raw c) /\ any_machine (fun c => @get_first_element c) /\
  any_machine (fun c => @get_matching_elements c) /\ any_machine (fun c => @parse_raw_element c) /\ any_machine (fun c => @match_and_parse c) /\
  any_machine (fun c => @wr_elements c) /\ any_machine (fun c => @wr_chain c) /\ any_machine (fun c => @wr_wrapped c) /\ any_machine (fun c => @tb_write c) /\
  any_machine (fun c => @wr_vendor c) /\ any_machine (fun c => @rd_typed_ext c).
Proof. exact elements_machine. Qed.
Print Assumptions C72_elements_partial.
Theorem C72_mgmt_partial :
  any_machine (fun c => @Beacon c) /\ any_machine (fun c => @ProbeResponse c) /\ any_machine (fun c => @ProbeRequest c) /\ any_machine (fun c => @Authentication c) /\
  any_machine (fun c => @AssociationRequest c) /\ any_machine (fun c => @AssociationResponse c) /\ any_machine (fun c => @Deauthentication c) /\
  any_machine (fun c => @Disassociation c) /\ any_machine (fun c => @RawAction c) /\ any_machine (fun c => @RawVendorSpecificAction c) /\
  any_machine (fun c => @MeshPeeringOpen c) /\ any_machine (fun c => @MeshPeeringConfirm c) /\ any_machine (fun c => @MeshPeeringClose c) /\
  any_machine (fun c => @rd_mgmt c) /\ any_machine (fun c => @wr_mgmt c) /\ any_machine (fun c => @into_dynamic c) /\ any_machine (fun c => @dyn_add c) /\
  any_machine (fun c => @beacon_ssid c) /\ any_machine (fun c => @probe_ssid c) /\ any_machine (fun c => @is_vendor_and_matches c) /\
  any_machine (fun c => @append_vendor_action_header c) /\ any_machine (fun c => @strip_and_check_vendor_action_header c) /\ any_machine (fun c => @attach_fcs c) /\
  any_machine (fun c => @strip_and_validate_fcs c).
Proof. exact mgmt_machine. Qed.
Print Assumptions C72_mgmt_partial.
Theorem C72_frames_partial :
  any_machine (fun c => @wr_data c) /\ any_machine (fun c => @potentially_wrapped_payload c) /\ any_machine (fun c => @rd_crypto_header c) /\
  any_machine (fun c => @wr_crypto_header c) /\ any_machine (fun c => @rd_wrapped c) /\ any_machine (fun c => @c_crypto c) /\ any_machine (fun c => @amsdu_items c) /\
  any_machine (fun c => @c_amsdu c) /\ any_machine (fun c => @rd_ctrl c) /\ any_machine (fun c => @wr_ctrl c) /\ any_machine (fun c => @gf_new c) /\
  any_machine (fun c => @gf_fcf c) /\ any_machine (fun c => @gf_duration c) /\ any_machine (fun c => @gf_address_1 c) /\ any_machine (fun c => @gf_address_2 c) /\
  any_machine (fun c => @gf_address_3 c) /\ any_machine (fun c => @gf_matches c) /\ any_machine (fun c => @gf_parse c) /\ any_machine (fun c => @match_frames c).
Proof. exact frames_machine. Qed.
Print Assumptions C72_frames_partial.
Theorem C72_keys_partial :
  any_machine (fun c => @rd_key_frame c) /\ any_machine (fun c => @wr_key_frame c) /\ any_machine (fun c => @eapol_data c) /\
  any_machine (fun c => @serialize_eapol c) /\ any_machine (fun c => @serialize_in_place c) /\ any_machine (fun c => @decrypt_key_data c).
Proof. exact keys_machine. Qed.
Print Assumptions C72_keys_partial.
(** so is the history of a dynamic frame before it is finished *)
Theorem C72_dynamic : forall c st calls st', @dyn_steps (on_big c) st calls st' <-> @dyn_steps (on_little c) st calls st'.
Proof. exact dyn_steps_machine. Qed.
Print Assumptions C72_dynamic.
(** Receiving key frames and recognising them: the same on all machines. *)
Theorem C72_receive : forall c hmac kw_unwrap kck kek buffer temp akm fcs, wf_bytes buffer ->
  @deserialize_eapol (on_big c) hmac kw_unwrap kck kek buffer temp akm fcs = @deserialize_eapol (on_little c) hmac kw_unwrap kck kek buffer temp akm fcs /\
  @deserialize_in_place (on_big c) hmac kw_unwrap kck kek buffer temp akm fcs = @deserialize_in_place (on_little c) hmac kw_unwrap kck kek buffer temp akm fcs.
Proof. exact (fun c hmac u kck kek b t a f W => conj (deserialize_machine c hmac u kck kek b t a f W) (in_place_machine c hmac u kck kek b t a f W)). Qed.
Print Assumptions C72_receive.
Theorem C72_is_eapol : forall c g, wf_bytes g -> @gf_is_eapol_key_frame (on_big c) g = @gf_is_eapol_key_frame (on_little c) g.
Proof. exact eapol_machine. Qed.
Print Assumptions C72_is_eapol.
(** The others, exactly. A big endian machine reads every data frame like a little endian machine, except that the two bytes of the
    duration and of the sequence control field are exchanged. *)
Theorem C72_data_exact : forall c fcs bs, wf_bytes bs ->
  @rd_data (on_big c) fcs bs = rmap (fun '((h, p), n) => ((swapped_header h, p), n)) (@rd_data (on_little c) fcs bs).
Proof. exact data_swapped. Qed.
Print Assumptions C72_data_exact.
(** So a frame that is written and read again on a big endian machine is changed in exactly this way, and doing it twice restores it. *)
Theorem C29_big_endian_exact : forall (cfg : Cfg) h p body fcs, native_le = false -> ok_data_header h -> payload_ok h p body ->
  pread (rd_data fcs) (enc_frame fcs (enc_data h body)) 0 = Ok (swapped_header h, match p with Some _ => Some body | None => None end).
Proof. exact @data_read_big. Qed.
Print Assumptions C29_big_endian_exact.
Theorem C29_big_endian_twice : forall h, ok_data_header h -> swapped_header (swapped_header h) = h.
Proof. exact data_relay_twice. Qed.
Print Assumptions C29_big_endian_twice.
Theorem C72_sequence_exact : forall c g, wf_bytes g ->
  @gf_sequence_control (on_big c) g = rmap (option_map swapped) (@gf_sequence_control (on_little c) g).
Proof. exact sequence_swapped. Qed.
Print Assumptions C72_sequence_exact.
(** RSN elements: the two bytes of the capabilities are exchanged. *)
Theorem C72_rsn_exact : forall c bs, wf_bytes bs ->
  @rd_rsn (on_big c) bs = rmap (fun '(x, n) => (swapped_rsn x, n)) (@rd_rsn (on_little c) bs).
Proof. exact rsn_swapped. Qed.
Print Assumptions C72_rsn_exact.
(** Mesh peering elements: the bytes of all numbers are exchanged. *)
Theorem C72_peering_exact : forall c,
  (forall bs, wf_bytes bs -> @rd_peering (on_big c) bs = rmap (fun '(x, n) => (swapped_peering x, n)) (@rd_peering (on_little c) bs)) /\
  @parse_as_open (on_big c) = @parse_as_open (on_little c) /\
  (forall x, wf_bytes (mp_rest x) -> @parse_as_confirm (on_big c) x = rmap (option_map swapped_links) (@parse_as_confirm (on_little c) x)) /\
  (forall x, wf_bytes (mp_rest x) -> @parse_as_close (on_big c) x = rmap (option_map swapped_links) (@parse_as_close (on_little c) x)).
Proof. exact (fun c => conj (peering_swapped c) (conj eq_refl (conj (confirm_swapped c) (close_swapped c)))). Qed.
Print Assumptions C72_peering_exact.
(** Dynamic frames: the bytes of the frame check sequence are in reverse order, and the receiver rejects the frame unless that makes
    no difference. *)
Theorem C72_dynamic_fcs_exact : forall (cfg : Cfg) frame mpdu buf st0 calls raws st buf' n, native_le = false -> Writes (frame false) mpdu ->
  dyn_new frame buf = Ok st0 -> dyn_steps st0 calls st -> Forall2 call_element calls raws ->
  let p := mpdu ++ enc_elements (added calls raws) in wf_bytes p ->
  dyn_finish true st = Ok (buf', n) ->
  firstn n buf' = p ++ rev (le_bytes 4 (crc32 p)) /\
  (forall body, strip_and_validate_fcs (firstn n buf') = Ok body <-> body = p /\ rev (le_bytes 4 (crc32 p)) = le_bytes 4 (crc32 p)).
Proof. exact @finish_big. Qed.
Print Assumptions C72_dynamic_fcs_exact.
(** (The Michael function: C36_big_endian.) So the claim as it stands is false. *)
Theorem C72_refuted : forall (c : Cfg), exists bs,
  wf_bytes bs /\ @rd_data (on_big c) false bs <> @rd_data (on_little c) false bs.
Proof. exact data_machine_differs. Qed.
Print Assumptions C72_refuted.
Example C72_ex (c : Cfg) : let bs := [8; 2; 44; 1; 1; 1; 1; 1; 1; 1; 2; 2; 2; 2; 2; 2; 3; 3; 3; 3; 3; 3; 16; 32; 9; 9]%N in
  wf_bytesb bs = true /\ swapped 300 = 11265%N /\
  exists h p n, @rd_data (on_little c) false bs = Ok ((h, p), n) /\ dh_duration h = 300%N /\
    @rd_data (on_big c) false bs = Ok ((swapped_header h, p), n) /\ dh_duration (swapped_header h) = 11265%N.
Proof. destruct c as [[] [] []]; (split; [reflexivity|]; split; [reflexivity|]; do 3 eexists; repeat split; vm_compute; reflexivity). Qed.

(** ** C73: build profile *)
(** These functions are the same functions in debug and in release builds. *)
Theorem C73_elements :
  any_build (fun c => @SSIDElement c) /\ any_build (fun c => @MeshIDElement c) /\ any_build (fun c => @SupportedRatesElement c) /\
  any_build (fun c => @ExtendedSupportedRatesElement c) /\ any_build (fun c => @DSSSParameterSetElement c) /\ any_build (fun c => @IBSSParameterSetElement c) /\
  any_build (fun c => @BSSLoadElement c) /\ any_build (fun c => @TIMElement c) /\ any_build (fun c => @HTCapabilitiesElement c) /\
  any_build (fun c => @HTOperationElement c) /\ any_build (fun c => @VHTCapabilitiesElement c) /\ any_build (fun c => @VHTOperationElement c) /\
  any_build (fun c => @MeshConfigurationElement c) /\ any_build (fun c => @OWETransitionModeElement c) /\ any_build (fun c => @VendorSpecificElement c) /\
  any_build (fun c => @MacAddressKde c) /\ any_build (fun c => @PmkidKde c) /\ any_build (fun c => @NonceKde c) /\ any_build (fun c => @LifetimeKde c) /\
  any_build (fun c => @GtkKde c) /\ any_build (fun c => @RsnElement c) /\ any_build (fun c => @MeshPeeringElement c) /\ any_build (fun c => @wr_rsn c) /\
  any_build (fun c => @rsn_measure c) /\ any_build (fun c => @raw_elements c) /\ any_build (fun c => @get_first_element_raw c) /\
  any_build (fun c => @get_matching_elements_raw c) /\ any_build (fun c => @get_first_element c) /\ any_build (fun c => @get_matching_elements c) /\
  any_build (fun c => @parse_raw_element c) /\ any_build (fun c => @match_and_parse c) /\ any_build (fun c => @wr_elements c) /\ any_build (fun c => @wr_chain c) /\
  any_build (fun c => @wr_wrapped c) /\ any_build (fun c => @tb_write c) /\ any_build (fun c => @wr_vendor c) /\ any_build (fun c => @rd_typed_ext c) /\
  any_build (fun c => @parse_as_open c) /\ any_build (fun c => @parse_as_confirm c) /\ any_build (fun c => @parse_as_close c) /\
  any_build (fun c => @peering_new_open c) /\ any_build (fun c => @peering_new_confirm c) /\ any_build (fun c => @peering_new_close c).
Proof. exact elements_build. Qed.
Print Assumptions C73_elements.
Theorem C73_mgmt :
  any_build (fun c => @Beacon c) /\ any_build (fun c => @ProbeResponse c) /\ any_build (fun c => @ProbeRequest c) /\ any_build (fun c => @Authentication c) /\
  any_build (fun c => @AssociationRequest c) /\ any_build (fun c => @AssociationResponse c) /\ any_build (fun c => @Deauthentication c) /\
  any_build (fun c => @Disassociation c) /\ any_build (fun c => @RawAction c) /\ any_build (fun c => @RawVendorSpecificAction c) /\
  any_build (fun c => @MeshPeeringOpen c) /\ any_build (fun c => @MeshPeeringConfirm c) /\ any_build (fun c => @MeshPeeringClose c) /\ any_build (fun c => @rd_mgmt c) /\
  any_build (fun c => @wr_mgmt c) /\ any_build (fun c => @into_dynamic c) /\ any_build (fun c => @dyn_add c) /\ any_build (fun c => @beacon_ssid c) /\
  any_build (fun c => @probe_ssid c) /\ any_build (fun c => @is_vendor_and_matches c) /\ any_build (fun c => @append_vendor_action_header c) /\
  any_build (fun c => @strip_and_check_vendor_action_header c) /\ any_build (fun c => @attach_fcs c) /\ any_build (fun c => @strip_and_validate_fcs c) /\
  any_build (fun c => @dyn_finish c).
Proof. exact mgmt_build. Qed.
Print Assumptions C73_mgmt.
Theorem C73_frames :
  any_build (fun c => @potentially_wrapped_payload c) /\ any_build (fun c => @rd_crypto_header c) /\ any_build (fun c => @wr_crypto_header c) /\
  any_build (fun c => @rd_wrapped c) /\ any_build (fun c => @c_crypto c) /\ any_build (fun c => @amsdu_items c) /\ any_build (fun c => @c_amsdu c) /\
  any_build (fun c => @rd_ctrl c) /\ any_build (fun c => @wr_ctrl c) /\ any_build (fun c => @rd_data c) /\ any_build (fun c => @gf_new c) /\
  any_build (fun c => @gf_fcf c) /\ any_build (fun c => @gf_duration c) /\ any_build (fun c => @gf_address_1 c) /\ any_build (fun c => @gf_address_2 c) /\
  any_build (fun c => @gf_address_3 c) /\ any_build (fun c => @gf_matches c) /\ any_build (fun c => @gf_parse c) /\ any_build (fun c => @match_frames c) /\
  any_build (fun c => @gf_sequence_control c) /\ any_build (fun c => @gf_is_eapol_key_frame c).
Proof. exact frames_build. Qed.
Print Assumptions C73_frames.
Theorem C73_keys :
  any_build (fun c => @rd_key_frame c) /\ any_build (fun c => @wr_key_frame c) /\ any_build (fun c => @eapol_data c) /\ any_build (fun c => @decrypt_key_data c) /\
  any_build (fun c => @deserialize_plain_in_place c) /\ any_build (fun c => @michael c).
Proof. exact keys_build. Qed.
Print Assumptions C73_keys.
Theorem C73_dynamic : forall c st calls st', @dyn_steps (debug c) st calls st' <-> @dyn_steps (release c) st calls st'.
Proof. exact dyn_steps_build. Qed.
Print Assumptions C73_dynamic.
(** The others give the same unless the debug build panics. *)
Theorem C73_constructors :
  (forall v, or_panics (fun c => @aid_new_unchecked c v)) /\ (forall v, or_panics (fun c => @aid_macro c v)) /\
  (forall r b, or_panics (fun c => @from_rate_in_kbps c r b)) /\ (forall r b, or_panics (fun c => @rate_macro c r b)) /\
  (forall l, or_panics (fun c => @from_vht_mcs_iter c l)) /\
  (forall m l, or_panics (fun c => @tb_new_static c m l)) /\ (forall l, or_panics (fun c => @tim_bitmap_list c l)) /\
  (forall lo hi, or_panics (fun c => @tim_bitmap_range c lo hi)).
Proof. exact constructors_build. Qed.
Print Assumptions C73_constructors.
Theorem C73_tim :
  (forall t, or_panics (fun c => @tb_aid_iter c t)) /\ (forall t, or_panics (fun c => @tb_display c t)) /\ (forall t, or_panics (fun c => @tb_defmt c t)) /\
  (forall t, or_panics (fun c => @te_display c t)) /\ (forall t, or_panics (fun c => @te_defmt c t)).
Proof. exact (conj aid_iter_build (conj tb_display_build (conj tb_defmt_build (conj te_display_build te_defmt_build)))). Qed.
Print Assumptions C73_tim.
Theorem C73_write :
  (forall d fcs buf, or_panics (fun c => @wr_data c d fcs buf)) /\ (forall k, or_panics (fun c => @ctrl_fcf c serr k)).
Proof. exact (conj wr_data_build ctrl_fcf_build). Qed.
Print Assumptions C73_write.
Theorem C73_eapol : forall hmac kw_wrap kw_unwrap kck kek,
  (forall d buffer temp, or_panics (fun c => @serialize_eapol c hmac kw_wrap kck kek d buffer temp)) /\
  (forall buffer temp akm fcs, or_panics (fun c => @deserialize_eapol c hmac kw_unwrap kck kek buffer temp akm fcs)) /\
  (forall d buffer temp torn c, let f c := @serialize_in_place c hmac kw_wrap kck kek d buffer temp torn in f (debug c) = f (release c) \/ fst (f (debug c)) = Panic) /\
  (forall buffer temp akm fcs c, let f c := @deserialize_in_place c hmac kw_unwrap kck kek buffer temp akm fcs in f (debug c) = f (release c) \/ fst (f (debug c)) = Panic).
Proof.
  exact (fun hmac w u kck kek => conj (serialize_build hmac w kck kek) (conj (deserialize_build hmac u kck kek)
    (conj (serialize_in_place_build hmac w kck kek) (deserialize_in_place_build hmac u kck kek)))).
Qed.
Print Assumptions C73_eapol.
(** which does happen *)
Example C73_ex (c : Cfg) : @aid_new_unchecked (debug c) 20000 = Panic /\ (exists a, @aid_new_unchecked (release c) 20000 = Ok a) /\
  exists a, @aid_new_unchecked (debug c) 2007 = Ok a /\ @aid_new_unchecked (release c) 2007 = Ok a.
Proof. split; [reflexivity|]. split; eexists; [reflexivity|split; reflexivity]. Qed.
