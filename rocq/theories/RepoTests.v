(** The tests in /repo/tests, the unit tests in /repo/src and the assertions of /repo/examples, evaluated in the model.

    These examples are no claims about all inputs. They check that the model behaves like the code on the inputs for
    which the project itself states the result. The tests of /repo/tests/crypto are in PropKeyMgmt.v and
    PropMichael.v. *)
From Verif Require Import Base Bits Layouts Enums Common Crc Control Elements ElementTypes Rsn Tim Mgmt CryptoHeader Amsdu Data
  Accessors Generic Builder Michael SpecAccessors SpecMgmt RepoBytes.
From Coq Require Import Floats.SpecFloat.

Ltac every_cfg := intros cfg; destruct cfg as [[] [] []]; vm_compute; repeat split; reflexivity.

(** characters *)
Definition str_Test : bytes := [0x54; 0x65; 0x73; 0x74]%N.
(** "Lorem ipsum dolor sit amet augue." *)
Definition str_lorem : bytes := [0x4c; 0x6f; 0x72; 0x65; 0x6d; 0x20; 0x69; 0x70; 0x73; 0x75; 0x6d; 0x20; 0x64; 0x6f; 0x6c; 0x6f; 0x72; 0x20;
  0x73; 0x69; 0x74; 0x20; 0x61; 0x6d; 0x65; 0x74; 0x20; 0x61; 0x75; 0x67; 0x75; 0x65; 0x2e]%N.

(** ** tests/common.rs:9-28, [roundtrip_test!]: the read value equals the expected one, the expected value is written
    into a buffer as long as the read value says, and the bytes are the expected ones. *)
Definition roundtrip_test {cfg : Cfg} {W R} (t : ElementType W R) (equal : R -> W -> bool) (measure : R -> nat) (expected : W) (bs : bytes) : Prop :=
  exists r, pread (et_read t) bs 0 = Ok r /\ equal r expected = true /\
    pwrite (et_write t expected) (repeat 0%N (measure r)) 0 = Ok (bs, measure r).
Ltac roundtrip := intros cfg; destruct cfg as [[] [] []]; eexists; (split; [vm_compute; reflexivity|]); split; vm_compute; reflexivity.

(** tests/elements/dsss_parameter_set.rs *)
Example test_dsss_parameter_set_rw : forall cfg : Cfg, roundtrip_test DSSSParameterSetElement N.eqb (et_measure DSSSParameterSetElement) 13%N [13]%N.
Proof. roundtrip. Qed.
(** tests/elements/ibss_parameter_set.rs *)
Example test_ibss_parameter_set : forall cfg : Cfg, roundtrip_test IBSSParameterSetElement N.eqb (et_measure IBSSParameterSetElement) 42%N [42; 0]%N.
Proof. roundtrip. Qed.
(** tests/elements/ssid.rs, tests/elements/mesh_id.rs *)
Example test_ssid_element_rw : forall cfg : Cfg, roundtrip_test SSIDElement bytes_eqb (et_measure SSIDElement) str_Test str_Test.
Proof. roundtrip. Qed.
Example test_mesh_id_element_rw : forall cfg : Cfg, roundtrip_test MeshIDElement bytes_eqb (et_measure MeshIDElement) str_Test str_Test.
Proof. roundtrip. Qed.
Example test_ssid_element_misc : ssid_is_hidden [] = true /\ length str_Test = 4 /\ ssid_new str_Test = Some str_Test /\ ssid_new str_lorem = None.
Proof. repeat split; reflexivity. Qed.
(** tests/elements/rsn.rs *)
Definition expected_rsn : Rsn := mkRsn (Some Cs_Ccmp128) (Some (Arr [Cs_Ccmp128])) (Some (Arr [Ak_Psk]))
  (Some (lset RsnCapabilities_layout "ptksa_replay_counter" 3 0)) None None.
(** The capabilities come out right on a little endian target only. *)
Example test_rsn_element_rw : forall cfg : Cfg, native_le = true -> roundtrip_test RsnElement rsn_eqb (et_measure RsnElement) expected_rsn rsn_bin.
Proof. intros cfg E; destruct cfg as [[] [] []]; try discriminate E; eexists; (split; [vm_compute; reflexivity|]); split; vm_compute; reflexivity. Qed.
Example test_rsn_element_builder : forall cfg : Cfg,
  rsn_eqb WPA2_PERSONAL (with_rsn_capabilities (with_akm_list (with_pairwise_cipher_suite_list (with_group_data_cipher_suite rsn_new
    Cs_Ccmp128) [Cs_Ccmp128]) [Ak_Psk]) 0) = true.
Proof. every_cfg. Qed.
Example test_akm_parameters : key_mic_len Ak_Psk = Some 16.
Proof. reflexivity. Qed.
(** tests/elements/supported_rates.rs; 1.5 is the third multiple of one half *)
Example test_encoded_rate : forall cfg : Cfg, rate_macro (half 3) true = Ok 0x83%N /\ lgetb EncodedRate_layout "is_b" 0x83 = true /\ rate_in_kbps 0x83 = 1500%N.
Proof. every_cfg. Qed.
Example test_supported_rates_misc :
  supported_rates_new [0x83]%N = Some [0x83]%N /\ supported_rates_new (repeat 0x83%N 9) = None /\
  extended_supported_rates_new [0x83]%N = Some [0x83]%N /\ extended_supported_rates_new (repeat 0x83%N 252) = None.
Proof. repeat split; reflexivity. Qed.
Example test_supported_rates_rw : forall cfg : Cfg, roundtrip_test SupportedRatesElement bytes_eqb (et_measure SupportedRatesElement) [0x83]%N [0x83]%N.
Proof. roundtrip. Qed.
Example test_extended_supported_rates_rw : forall cfg : Cfg, exists rates, [rate_macro (half 3) true; rate_macro (half 4) false] = map Ok rates /\
  roundtrip_test ExtendedSupportedRatesElement bytes_eqb (et_measure ExtendedSupportedRatesElement) rates [0x83; 0x04]%N.
Proof.
  intros cfg. exists [0x83; 0x04]%N. destruct cfg as [[] [] []]; (split; [vm_compute; reflexivity|]);
  eexists; (split; [vm_compute; reflexivity|]); split; vm_compute; reflexivity.
Qed.
(** tests/elements/tim.rs *)
Definition tim_equal {cfg : Cfg} (a b : TIM) : bool := match te_eq a b with Ok r => r | _ => false end.
Example test_tim_element_rw : forall cfg : Cfg, exists bm, tim_bitmap_list [0; 12; 13] = Ok bm /\
  roundtrip_test TIMElement tim_equal (et_measure TIMElement) (mkTIM 2 3 (Some bm)) [0x02; 0x03; 0x01; 0x01; 0x30]%N /\
  tb_aid_iter bm = Ok (Some [0xc00c; 0xc00d]%N).
Proof.
  intros cfg. destruct cfg as [[] [] []]; eexists; (split; [vm_compute; reflexivity|]); (split; [|vm_compute; reflexivity]);
  eexists; (split; [vm_compute; reflexivity|]); split; vm_compute; reflexivity.
Qed.
Example test_empty_tim_element_rw : forall cfg : Cfg, roundtrip_test TIMElement tim_equal (et_measure TIMElement) (mkTIM 2 3 None) [0x02; 0x03]%N.
Proof. roundtrip. Qed.
(** tests/elements/mod.rs *)
Definition read_elements_bytes : bytes := [0x00; 0x04; 0x54; 0x65; 0x73; 0x74; 0xdd; 0x06; 0x00; 0x80; 0x41; 0x00; 0x13; 0x37;
  0xff; 0x03; 0x00; 0x13; 0x37]%N.
Example test_read_elements : forall cfg : Cfg,
  get_first_element SSIDElement read_elements_bytes = Ok (Some str_Test) /\
  get_first_element_raw read_elements_bytes (VendorSpecific [0x00; 0x80; 0x41; 0x00]%N) = Ok (Some (mkRaw 0xdd [0x00; 0x80; 0x41; 0x00; 0x13; 0x37]%N)) /\
  get_first_element_raw read_elements_bytes (ExtId 0) = Ok (Some (mkRaw 0xff [0x00; 0x13; 0x37]%N)).
Proof. every_cfg. Qed.
(** tests/aid.rs *)
Example test_aid : aid_new_checked 1 = Some 0xc001%N /\ aid_new_checked 2007 <> None /\ aid_new_checked (N.lor 2007 0xc000) <> None /\ aid_new_checked 2008 = None.
Proof. vm_compute. repeat split; discriminate. Qed.

(** ** tests/frames *)
(** tests/frames/action.rs *)
Example test_raw_action_frame : forall cfg : Cfg,
  match_frames awdl_action_bin None [mkArm _ _ (mgmt_kind RawAction) (rd_mgmt RawAction) (fun f => ra_category (snd f))] = Ok Cat_VendorSpecific.
Proof. every_cfg. Qed.
Example test_raw_vendor_action_frame : forall cfg : Cfg,
  match_frames awdl_action_bin None [mkArm _ _ (mgmt_kind RawVendorSpecificAction) (rd_mgmt RawVendorSpecificAction) (fun f => va_oui (snd f))] = Ok [0x00; 0x17; 0xf2]%N.
Proof. every_cfg. Qed.
(** "meshtest" *)
Definition str_meshtest : bytes := [0x6d; 0x65; 0x73; 0x68; 0x74; 0x65; 0x73; 0x74]%N.
Example test_action_mesh_open : forall cfg : Cfg,
  match_frames action_mesh_open_bin None [mkArm _ _ (mgmt_kind MeshPeeringOpen) (rd_mgmt MeshPeeringOpen) (fun f =>
    (get_first_element MeshIDElement (mo_elements (snd f)), get_first_element MeshConfigurationElement (mo_elements (snd f))))] =
  Ok (Ok (Some str_meshtest),
      Ok (Some (mkMeshConf Mpsp_HWMP Mpsm_AirtimeLinkMetric Mcc_NotActivated Msm_NeighborOffsetSynchronization Map_NoAuthentication 0
                  (lsetb MeshCapability_layout "accept_additional_mesh_peerings" true (lsetb MeshCapability_layout "forwarding" true 0))))).
Proof. every_cfg. Qed.
(** tests/frames/data_frame.rs *)
Definition our_mac_address : bytes := [0x00; 0x20; 0x91; 0x13; 0x37; 0x00]%N.
Definition ap_mac_address : bytes := [0x00; 0x20; 0x91; 0x13; 0x37; 0x01]%N.
Definition expected_data_frame : option (DataFrame Container) :=
  built [To_ds; Category_data; Payload PT_Slice (c_bytes [0x13; 0x37]%N); Destination_address ap_mac_address; Source_address our_mac_address; Bssid ap_mac_address].
Definition expected_data_bytes : bytes := [
  0x08; 0x01; 0x00; 0x00; 0x00; 0x20; 0x91; 0x13; 0x37; 0x01; 0x00; 0x20; 0x91; 0x13; 0x37; 0x00;
  0x00; 0x20; 0x91; 0x13; 0x37; 0x01; 0x00; 0x00; 0x13; 0x37]%N.
Example test_data_frame_rw : forall cfg : Cfg, exists sent read, expected_data_frame = Some sent /\
  pread (rd_data false) expected_data_bytes 0 = Ok read /\ fst read = fst sent /\
  potentially_wrapped_payload read None = Ok (Some (Unwrapped _ (Pl_Single [0x13; 0x37]%N))) /\
  pwrite (wr_data sent false) (repeat 0%N (data_measure sent false)) 0 = Ok (expected_data_bytes, 26).
Proof.
  intros cfg. destruct cfg as [[] [] []]; do 2 eexists; (split; [vm_compute; reflexivity|]); (split; [vm_compute; reflexivity|]);
  (split; [vm_compute; reflexivity|]); split; vm_compute; reflexivity.
Qed.
Definition encrypted_data_frame_bytes : bytes := [
  0x88; 0x41; 0x30; 0x00; 0x7c; 0x5a; 0x1c; 0x15; 0xcf; 0xa7; 0x74; 0xd8; 0x3e; 0x9e; 0xff; 0x57;
  0x84; 0x39; 0x8f; 0xe2; 0x57; 0x39; 0xb0; 0x03; 0x00; 0x00; 0x3a; 0x00; 0x00; 0x20; 0x00; 0x00;
  0x00; 0x00; 0x81; 0x5b; 0x20; 0xb6; 0x32; 0x4d; 0xfb; 0x2a; 0x3d; 0xd6; 0x65; 0x00; 0x78; 0x1c;
  0xa3; 0xf7; 0x64; 0x1c; 0xec; 0x21; 0xdc; 0x05; 0xa7; 0xd5; 0x92; 0x47; 0x50; 0xe6; 0x83; 0x46;
  0x3a; 0x48; 0x82; 0x55; 0x46; 0xff; 0x33; 0x19; 0x01; 0xa0]%N.
Example test_encrypted_data_frame : forall cfg : Cfg, exists read w, pread (rd_data false) encrypted_data_frame_bytes 0 = Ok read /\
  potentially_wrapped_payload read (Some Mic_NotPresent) = Ok (Some (CryptoWrapped _ w)) /\
  ch_packet_number (cw_header w) = 0x3a%N /\ ch_key_id (cw_header w) = 0%N.
Proof.
  intros cfg. destruct cfg as [[] [] []]; do 2 eexists; (split; [vm_compute; reflexivity|]); (split; [vm_compute; reflexivity|]);
  split; vm_compute; reflexivity.
Qed.
(** tests/frames/generic_frame.rs *)
Definition ack_frame_bytes : bytes := [0xd4; 0x00; 0x37; 0x13; 0x01; 0x02; 0x03; 0x04; 0x05; 0x06]%N.
Example test_gf_ack : forall cfg : Cfg, exists g, gf_new ack_frame_bytes false = Ok g /\
  gf_fcf g = Ok (fcf_make (FT_Control Ct_Ack) 0) /\ gf_duration g = Ok 0x1337%N /\ gf_address_1 g = Ok [1; 2; 3; 4; 5; 6]%N /\
  gf_address_2 g = Ok None.
Proof.
  intros cfg. destruct cfg as [[] [] []]; eexists; (split; [vm_compute; reflexivity|]); repeat split; vm_compute; reflexivity.
Qed.
Example test_gf_ack_extended : forall cfg : Cfg, exists g, gf_new (ack_frame_bytes ++ repeat 0%N 6) false = Ok g /\ gf_address_2 g = Ok None.
Proof. intros cfg. destruct cfg as [[] [] []]; eexists; (split; [vm_compute; reflexivity|]); vm_compute; reflexivity. Qed.
Definition beacon_frame_bytes : bytes := [
  0x80; 0x00; 0x00; 0x00; 0x01; 0x02; 0x03; 0x04; 0x05; 0x06; 0x01; 0x02; 0x03; 0x04; 0x05; 0x06;
  0xff; 0xff; 0xff; 0xff; 0xff; 0xff; 0x10; 0x00; 0x00; 0x00; 0x00; 0x00; 0x00; 0x00; 0x00; 0x00;
  0x00; 0x00; 0x00; 0x00]%N.
(** The sequence control comes out right on a little endian target only. *)
Example test_gf_beacon : forall cfg : Cfg, native_le = true -> exists g, gf_new beacon_frame_bytes false = Ok g /\
  gf_address_2 g = Ok (Some [1; 2; 3; 4; 5; 6]%N) /\ gf_address_3 g = Ok (Some (repeat 0xff%N 6)) /\
  gf_sequence_control g = Ok (Some (lset SequenceControl_layout "sequence_number" 1 0)).
Proof.
  intros cfg E. destruct cfg as [[] [] []]; try discriminate E; eexists; (split; [vm_compute; reflexivity|]); repeat split; vm_compute; reflexivity.
Qed.

(** ** The unit test at the end of src/frames/data_frame/builder.rs:778-798: both chains of calls exist *)
Definition ZERO : bytes := repeat 0%N 6.
Example test_builder : 
  built [Neither_to_nor_from_ds; Category_data; Payload PT_Slice (c_bytes []); Destination_address ZERO; Source_address ZERO; Bssid ZERO] <> None /\
  built [To_and_from_ds; Category_qos; Payload_amsdu (c_bytes []); Receiver_address ZERO; Transmitter_address ZERO; Bssid ZERO] <> None.
Proof. split; vm_compute; discriminate. Qed.

(** ** tests/crypto/michael.rs:15-26 *)
Example test_block_function : michael_block_function 0 0 = (0, 0)%N /\ michael_block_function 0 1 = (0xc00015a8, 0xc0000b95)%N /\
  michael_block_function 1 0 = (0x6b519593, 0x572b8b8a)%N /\ michael_block_function 0x01234567 0x83659326 = (0x441492c2, 0x1d8427ed)%N /\
  fold_left (fun lr _ => michael_block_function (fst lr) (snd lr)) (repeat tt 1000) (1, 0)%N = (0x9f04c4ad, 0x2ec6c2bf)%N.
Proof. vm_compute. repeat split. Qed.

(** ** examples *)
(** examples/beacon.rs *)
Definition beacon_start : bytes := [
  0x80; 0x00; 0x00; 0x00; 0xff; 0xff; 0xff; 0xff; 0xff; 0xff; 0x00; 0x80; 0x41; 0xff; 0xff; 0xff; 0x00; 0x80; 0x41; 0x13; 0x37; 0x42; 0x00; 0x00;
  0xff; 0xff; 0xff; 0xff; 0xff; 0xff; 0xff; 0xff; 0x04; 0x00; 0x00; 0x00]%N.
Definition initial_bytes : bytes := beacon_start ++ [
  0x00; 0x06; 0x4c; 0x61; 0x6d; 0x62; 0x64; 0x61; 0xdd; 0x0f; 0x50; 0x6f; 0x9a; 0x1c;
  0x00; 0x80; 0x41; 0x13; 0x37; 0x43; 0x04; 0x54; 0x65; 0x73; 0x74]%N.
Definition new_bytes : bytes := beacon_start ++ [
  0x00; 0x04; 0x54; 0x65; 0x73; 0x74; 0xdd; 0x12; 0x50; 0x6f; 0x9a; 0x1c;
  0x00; 0x80; 0x41; 0x13; 0x37; 0x43; 0x07; 0x4f; 0x57; 0x45; 0x54; 0x65; 0x73; 0x74]%N.
Example example_beacon : forall cfg : Cfg, exists h b, pread (rd_mgmt Beacon false) initial_bytes 0 = Ok (h, b) /\
  beacon_ssid b = Ok (Some [0x4c; 0x61; 0x6d; 0x62; 0x64; 0x61]%N) /\
  get_first_element OWETransitionModeElement (bb_elements b) = Ok (Some (mkOWE [0x00; 0x80; 0x41; 0x13; 0x37; 0x43]%N str_Test None)) /\
  let chain := chain_append (ChainEnd (Typed (elem_of SSIDElement str_Test))) (Typed (elem_of OWETransitionModeElement
    (mkOWE [0x00; 0x80; 0x41; 0x13; 0x37; 0x43]%N [0x4f; 0x57; 0x45; 0x54; 0x65; 0x73; 0x74]%N None))) in
  let body := mkBeacon (bb_timestamp b) (bb_interval b) (bb_capabilities b) (c_chain chain) in
  pwrite (wr_mgmt Beacon h body false) (repeat 0%N (mgmt_measure Beacon h body false)) 0 = Ok (new_bytes, length new_bytes).
Proof.
  intros cfg. destruct cfg as [[] [] []]; do 2 eexists; (split; [vm_compute; reflexivity|]); repeat split; vm_compute; reflexivity.
Qed.
(** examples/dynamic_mgmt_frame.rs; the example prints the frame *)
Definition broadcast : bytes := repeat 0xff%N 6.
Definition mac_address : bytes := [0x00; 0x80; 0x41; 0x13; 0x37; 0x42]%N.
Example example_dynamic_mgmt_frame : forall cfg : Cfg, 
  let h := mkMH 0 0 broadcast mac_address mac_address 0 None in
  let body := mkBeacon 0 100 (lsetb CapabilitiesInformation_layout "is_ess" true 0) (c_chain (chain_of (Typed (elem_of SSIDElement str_Test))
    [Typed (elem_of SupportedRatesElement [0x82; 0x84; 0x8b; 0x96; 0x0c; 0x12; 0x18; 0x24]%N); Typed (elem_of DSSSParameterSetElement 1%N);
     Typed (elem_of TIMElement (mkTIM 1 2 None))])) in
  exists buf, (st <- into_dynamic Beacon h body (repeat 0%N 300) ;; st <- dyn_add (elem_of RsnElement WPA2_PERSONAL) st ;; dyn_finish false st) = Ok (buf, 81) /\
  firstn 81 buf = [
    0x80; 0x00; 0x00; 0x00; 0xff; 0xff; 0xff; 0xff; 0xff; 0xff; 0x00; 0x80; 0x41; 0x13; 0x37; 0x42; 0x00; 0x80; 0x41; 0x13; 0x37; 0x42; 0x00; 0x00;
    0; 0; 0; 0; 0; 0; 0; 0; 100; 0; 1; 0;
    0; 4; 0x54; 0x65; 0x73; 0x74; 1; 8; 0x82; 0x84; 0x8b; 0x96; 0x0c; 0x12; 0x18; 0x24; 3; 1; 1; 5; 2; 1; 2;
    0x30; 20; 1; 0; 0; 0x0f; 0xac; 4; 1; 0; 0; 0x0f; 0xac; 4; 1; 0; 0; 0x0f; 0xac; 2; 0; 0]%N.
Proof.
  intros cfg. destruct cfg as [[] [] []]; eexists; (split; [vm_compute; reflexivity|]); vm_compute; reflexivity.
Qed.
(** examples/elements.rs, examples/match_frames.rs, examples/macros.rs: nothing panics *)
Definition is_some {A} (r : Res serr (option A)) : bool := match r with Ok (Some _) => true | _ => false end.
Example example_elements : forall cfg : Cfg, exists h b, pread (rd_mgmt Beacon false) beacon_bin 0 = Ok (h, b) /\
  is_some (get_first_element SSIDElement (bb_elements b)) = true /\ is_some (get_first_element RsnElement (bb_elements b)) = true /\
  is_some (get_first_element TIMElement (bb_elements b)) = true.
Proof.
  intros cfg. destruct cfg as [[] [] []]; do 2 eexists; (split; [vm_compute; reflexivity|]); repeat split; vm_compute; reflexivity.
Qed.
Example example_match_frames : forall cfg : Cfg,
  match match_frames beacon_bin None [
    mkArm _ _ (mgmt_kind Deauthentication) (rd_mgmt Deauthentication) (fun _ => None);
    mkArm _ _ (mgmt_kind Beacon) (rd_mgmt Beacon) (fun f => Some (beacon_ssid (snd f)));
    mkArm _ _ data_kind rd_data (fun _ => None);
    mkArm _ _ (mgmt_kind RawVendorSpecificAction) (rd_mgmt RawVendorSpecificAction) (fun _ => None)]
  with Ok (Some r) => is_some r | _ => false end = true.
Proof. every_cfg. Qed.
Example example_macros : forall cfg : Cfg, exists bm, tim_bitmap_range 2000 2007 = Ok bm.
Proof. intros cfg. destruct cfg as [[] [] []]; eexists; vm_compute; reflexivity. Qed.

(** ** The examples in the documentation comments (run as tests by the project) *)
(** src/elements/ht/mcs_set.rs:131-137 *)
Example doc_mcs_set : exists s, supported_rx_mcs_set_listing [0; 1; 2; 3; 4; 5] = Ok s /\ supported_rx_mcs_set_range 0 6 = Ok s.
Proof. eexists. split; vm_compute; reflexivity. Qed.
(** src/elements/rates/supported_rates.rs:111-124 *)
Example doc_rate : forall cfg : Cfg,
  rate_macro (half 3) false = Ok (lset EncodedRate_layout "rate" 3 0) /\
  rate_macro (half 3) true = Ok (lsetb EncodedRate_layout "is_b" true (lset EncodedRate_layout "rate" 3 0)).
Proof. every_cfg. Qed.
(** src/elements/ssid.rs:187-199; "Some unreasonably long SSID, for whatever reason." has 49 bytes *)
Example doc_ssid : let OpenRF := [0x4f; 0x70; 0x65; 0x6e; 0x52; 0x46]%N in
  ssid_macro OpenRF = Ok OpenRF /\ forall s, length s = 49 -> ssid_macro s = Panic.
Proof. split; [reflexivity|]. intros s H. unfold ssid_macro. now rewrite H. Qed.
(** src/elements/tim.rs:14-42, 384-408; src/common/aid.rs:64-75 *)
Definition doc_aids {cfg : Cfg} (l : list N) : list AssociationID := flat_map (fun n => match aid_macro n with Ok a => [a] | _ => [] end) l.
Definition is_ok {A} (r : Res serr A) : bool := match r with Ok _ => true | _ => false end.
Example doc_tim : forall cfg : Cfg,
  is_ok (tim_bitmap_list [42; 69; 1337]) = true /\ length (doc_aids [42; 69; 1337]%N) = 3 /\
  is_ok (tb_new_static false (doc_aids [42; 69; 1337]%N)) = true /\ is_ok (tim_bitmap_range 0 1337) = true /\
  tb_traffic tim_bitmap_zero = true /\ rmap tb_traffic (tim_bitmap_list [42; 1337]) = Ok false.
Proof. every_cfg. Qed.
Example doc_aid : forall cfg : Cfg, is_ok (aid_macro 1) = true /\ aid_macro 0 = Panic /\ aid_macro 2008 = Panic.
Proof. every_cfg. Qed.
(** src/frames/data_frame/builder.rs:14-32 *)
Example doc_builder : built [From_ds; Category_data; Payload PT_Slice (c_bytes [0xde; 0xad; 0xbe; 0xef]%N); Destination_address ap_mac_address;
  Source_address our_mac_address; Bssid ap_mac_address] <> None.
Proof. vm_compute. discriminate. Qed.

(** ** benches/ieee80211.rs: the captured frames are accepted and can be written; the bytes come out again *)
Example bench_beacon : forall cfg : Cfg, exists h b, pread (rd_mgmt Beacon false) beacon_bin 0 = Ok (h, b) /\
  pwrite (wr_mgmt Beacon h (mkBeacon (bb_timestamp b) (bb_interval b) (bb_capabilities b) (c_read_elements (bb_elements b))) false) (repeat 0%N 400) 0 =
    Ok (beacon_bin ++ repeat 0%N 12, 388).
Proof.
  intros cfg. destruct cfg as [[] [] []]; do 2 eexists; (split; [vm_compute; reflexivity|]); vm_compute; reflexivity.
Qed.
Example bench_action_vendor : forall cfg : Cfg, exists h b, pread (rd_mgmt RawAction false) action_vendor_bin 0 = Ok (h, b) /\
  pwrite (wr_mgmt RawAction h b false) (repeat 0%N 400) 0 = Ok (action_vendor_bin ++ repeat 0%N 68, 332).
Proof.
  intros cfg. destruct cfg as [[] [] []]; do 2 eexists; (split; [vm_compute; reflexivity|]); vm_compute; reflexivity.
Qed.
(** The remaining captures of /repo/bins are read with success as well. *)
Example other_captures : forall cfg : Cfg,
  is_ok (pread (rd_mgmt Beacon false) beacon_owe_bin 0) = true /\ is_ok (pread (rd_mgmt AssociationResponse false) assoc_bin 0) = true /\
  is_ok (pread (rd_data false) qos_data_bin 0) = true /\ is_ok (pread rd_supported_rates supported_rates_bin 0) = true /\
  is_ok (pread rd_ssid ssid_bin 0) = true /\ is_ok (pread rd_dsss dsss_parameter_set_bin 0) = true.
Proof. every_cfg. Qed.
