(** Bit field structures: every [#[bitfield]] of the crate, transcribed from the source by
    tools/gen_layouts.py (field names and widths in declaration order). *)
From Verif Require Import Base Bits.
Local Open Scope string_scope.
Local Open Scope N_scope.

(** /repo/src/common/aid.rs:12-17 [AssociationID: u16] *)
Definition AssociationID_layout : layout :=
  [ ("internal_aid", 14);
    ("padding", 2) ].

(** /repo/src/common/capabilities.rs:6-23 [CapabilitiesInformation: u16] *)
Definition CapabilitiesInformation_layout : layout :=
  [ ("is_ess", 1);
    ("is_ibss", 1);
    ("__", 2);
    ("is_confidentiality_required", 1);
    ("is_short_preamble_allowed", 1);
    ("__", 2);
    ("is_spectrum_management_implemented", 1);
    ("is_qos_implemented", 1);
    ("is_short_time_slot_in_use", 1);
    ("is_auto_power_save_implemented", 1);
    ("is_radio_measurement_implemented", 1);
    ("is_epd_implemented", 1);
    ("__", 2) ].

(** /repo/src/common/mod.rs:100-117 [FCFFlags: u8] *)
Definition FCFFlags_layout : layout :=
  [ ("to_ds", 1);
    ("from_ds", 1);
    ("more_fragments", 1);
    ("retry", 1);
    ("pwr_mgmt", 1);
    ("more_data", 1);
    ("protected", 1);
    ("order", 1) ].

(** /repo/src/common/mod.rs:121-128 [FrameControlField: u16] *)
Definition FrameControlField_layout : layout :=
  [ ("version", 2);
    ("frame_type", 6);
    ("flags", 8) ].

(** /repo/src/common/mod.rs:132-137 [SequenceControl: u16] *)
Definition SequenceControl_layout : layout :=
  [ ("fragment_number", 4);
    ("sequence_number", 12) ].

(** /repo/src/common/sig.rs:9-32 [HtSig: u32] *)
Definition HtSig_layout : layout :=
  [ ("mcs", 7);
    ("is_40mhz", 1);
    ("ht_length", 16);
    ("smoothing_recommended", 1);
    ("not_sounding", 1);
    ("reserved", 1);
    ("is_ampdu", 1);
    ("spatial_stream_count", 2);
    ("is_ldpc", 1);
    ("short_gi", 1) ].

(** /repo/src/crypto/eapol.rs:35-64 [KeyInformation: u16] *)
Definition KeyInformation_layout : layout :=
  [ ("key_descriptor_version", 3);
    ("is_pairwise", 1);
    ("__", 2);
    ("install", 1);
    ("key_ack", 1);
    ("key_mic", 1);
    ("secure", 1);
    ("error", 1);
    ("request", 1);
    ("encrypted_key_data", 1);
    ("__", 3) ].

(** /repo/src/elements/kde.rs:65-71 [GtkInfo: u16] *)
Definition GtkInfo_layout : layout :=
  [ ("key_id", 2);
    ("tx", 1);
    ("__", 13) ].

(** /repo/src/elements/rsn.rs:341-365 [RsnCapabilities: u16] *)
Definition RsnCapabilities_layout : layout :=
  [ ("supports_preauthentication", 1);
    ("no_pairwise_key", 1);
    ("ptksa_replay_counter", 2);
    ("gtksa_replay_counter", 2);
    ("mfp_config", 2);
    ("joint_multi_band_rsna_capable", 1);
    ("peer_key_enabled_handshake_capable", 1);
    ("spp_ampdu_config", 2);
    ("pbac_capable", 1);
    ("ext_key_id_for_individually_addressed_frames", 1);
    ("ocv_capable", 1);
    ("__", 1) ].

(** /repo/src/elements/tim.rs:64-72 [TIMBitmapControl: u8] *)
Definition TIMBitmapControl_layout : layout :=
  [ ("traffic_indicator", 1);
    ("bitmap_offset", 7) ].

(** /repo/src/elements/vht.rs:17-46 [VHTCapabilitiesInfo: u32] *)
Definition VHTCapabilitiesInfo_layout : layout :=
  [ ("maximum_mpdu_length", 2);
    ("supported_channel_width_set", 2);
    ("rx_ldpc", 1);
    ("short_gi_80mhz", 1);
    ("short_gi_160mhz", 1);
    ("tx_stbc", 1);
    ("rx_stbc", 3);
    ("su_beamformer_capable", 1);
    ("su_beamformee_capable", 1);
    ("beamformee_sts_capability", 3);
    ("number_of_sounding_dimensions", 3);
    ("mu_beamformer_capable", 1);
    ("mu_beamformee_capable", 1);
    ("txop_ps", 1);
    ("htc_vht_capable", 1);
    ("maximum_ampdu_length_exponent", 3);
    ("vht_link_adaptation_capable", 2);
    ("rx_antenna_pattern_consistency", 1);
    ("tx_antenna_pattern_consistency", 1);
    ("extended_nss_bw_support", 2) ].

(** /repo/src/elements/vht.rs:125-139 [SupportedVHTMCSAndNSSSet: u64] *)
Definition SupportedVHTMCSAndNSSSet_layout : layout :=
  [ ("rx_vht_mcs_map", 16);
    ("rx_highest_supported_long_gi_data_rate", 13);
    ("maximum_nsts_total", 3);
    ("tx_vht_mcs_map", 16);
    ("tx_highest_supported_long_gi_data_rate", 13);
    ("vht_extended_nss_bw_capable", 1);
    ("__", 2) ].

(** /repo/src/elements/ht/capabilities.rs:27-66 [HTCapabilitiesInfo: u16] *)
Definition HTCapabilitiesInfo_layout : layout :=
  [ ("ldpc_coding_capability", 1);
    ("supported_channel_width_set", 1);
    ("sm_power_save", 2);
    ("green_field", 1);
    ("short_gi_20mhz", 1);
    ("short_gi_40mhz", 1);
    ("tx_stbc", 1);
    ("rx_stbc", 2);
    ("__", 1);
    ("is_max_amsdu_large", 1);
    ("dsss_40mhz", 1);
    ("__", 1);
    ("forty_mhz_intolerant", 1);
    ("__", 1) ].

(** /repo/src/elements/ht/capabilities.rs:104-115 [AMpduParameters: u8] *)
Definition AMpduParameters_layout : layout :=
  [ ("max_a_mpdu_length", 2);
    ("mpdu_density", 3);
    ("__", 3) ].

(** /repo/src/elements/ht/capabilities.rs:119-131 [HTExtendedCapabilities: u16] *)
Definition HTExtendedCapabilities_layout : layout :=
  [ ("__", 8);
    ("mcs_feedback", 2);
    ("plus_htc_support", 1);
    ("rd_responder", 1);
    ("__", 4) ].

(** /repo/src/elements/ht/capabilities.rs:171-231 [TransmitBeamformingCapabilities: u32] *)
Definition TransmitBeamformingCapabilities_layout : layout :=
  [ ("implicit_transmit_beamforming_receiving_capable", 1);
    ("receive_staggered_sounding_capable", 1);
    ("transmit_staggered_sounding_capable", 1);
    ("receive_ndp_capable", 1);
    ("transmit_ndp_capable", 1);
    ("implicit_transmit_beamforming_capable", 1);
    ("calibration", 2);
    ("explicit_csi_transmit_beamforming_capable", 1);
    ("explicit_noncompressed_steering_capable", 1);
    ("explicit_compressed_steering_capable", 1);
    ("explicit_transmit_beamforming_csi_feedback", 2);
    ("explicit_noncompressed_beamforming_feedback_capable", 2);
    ("explicit_compressed_beamforming_feedback_capable", 2);
    ("minimal_grouping", 2);
    ("csi_number_of_beamformer_antennas_supported", 2);
    ("noncompresssed_steering_number_of_beamformer_antennas_supported", 2);
    ("compresssed_steering_number_of_beamformer_antennas_supported", 2);
    ("csi_max_number_of_rows_beamformer_supported", 2);
    ("channel_estimation_capability", 2);
    ("__", 3) ].

(** /repo/src/elements/ht/capabilities.rs:235-251 [ASELCapability: u8] *)
Definition ASELCapability_layout : layout :=
  [ ("antenna_selection_capable", 1);
    ("explicit_csi_feedback_based_transmit_asel_capable", 1);
    ("antenna_indices_feedback_based_transmit_asel_capable", 1);
    ("explicit_csi_feedback_capable", 1);
    ("antenna_indices_feedback_capable", 1);
    ("receive_asel_capable", 1);
    ("transmit_sounding_ppdus_capable", 1);
    ("reserved", 1) ].

(** /repo/src/elements/ht/mcs_set.rs:19-32 [SupportedMCSSetFlags: u32] *)
Definition SupportedMCSSetFlags_layout : layout :=
  [ ("rx_highest_supported_data_rate", 10);
    ("__", 6);
    ("tx_mcs_set_defined", 1);
    ("tx_rx_mcs_set_not_equal", 1);
    ("tx_maximum_number_spatial_streams_supported", 2);
    ("tx_unequal_modulation_supported", 1);
    ("__", 11) ].

(** /repo/src/elements/ht/operation.rs:55-87 [HTOperationInformation: u64] *)
Definition HTOperationInformation_layout : layout :=
  [ ("secondary_channel_offset", 2);
    ("any_channel_width", 1);
    ("rifs_permitted", 1);
    ("__", 4);
    ("ht_protection_mode", 2);
    ("nongreenfield_ht_sta_present", 1);
    ("__", 1);
    ("obss_non_ht_sta_present", 1);
    ("channel_center_frequency_segment_2", 8);
    ("__", 9);
    ("dual_beacon", 1);
    ("dual_cts_protection", 1);
    ("stbc_beacon", 1);
    ("__", 31) ].

(** /repo/src/elements/mesh/mesh_configuration.rs:68-73 [MeshFormationInfo: u8] *)
Definition MeshFormationInfo_layout : layout :=
  [ ("connected_to_mesh_gate", 1);
    ("num_peerings", 6);
    ("connected_to_as", 1) ].

(** /repo/src/elements/mesh/mesh_configuration.rs:77-86 [MeshCapability: u8] *)
Definition MeshCapability_layout : layout :=
  [ ("accept_additional_mesh_peerings", 1);
    ("mcca_supported", 1);
    ("mcca_enabled", 1);
    ("forwarding", 1);
    ("mbca_enabled", 1);
    ("tbtt_adjusting", 1);
    ("mesh_power_save_level", 1);
    ("_reserved", 1) ].

(** /repo/src/elements/rates/mod.rs:17-26 [EncodedRate: u8] *)
Definition EncodedRate_layout : layout :=
  [ ("rate", 7);
    ("is_b", 1) ].

(** name, word size and layout of every structure *)
Definition all_layouts : list (string * (N * layout)) :=
  [ ("AssociationID", (16, AssociationID_layout));
    ("CapabilitiesInformation", (16, CapabilitiesInformation_layout));
    ("FCFFlags", (8, FCFFlags_layout));
    ("FrameControlField", (16, FrameControlField_layout));
    ("SequenceControl", (16, SequenceControl_layout));
    ("HtSig", (32, HtSig_layout));
    ("KeyInformation", (16, KeyInformation_layout));
    ("GtkInfo", (16, GtkInfo_layout));
    ("RsnCapabilities", (16, RsnCapabilities_layout));
    ("TIMBitmapControl", (8, TIMBitmapControl_layout));
    ("VHTCapabilitiesInfo", (32, VHTCapabilitiesInfo_layout));
    ("SupportedVHTMCSAndNSSSet", (64, SupportedVHTMCSAndNSSSet_layout));
    ("HTCapabilitiesInfo", (16, HTCapabilitiesInfo_layout));
    ("AMpduParameters", (8, AMpduParameters_layout));
    ("HTExtendedCapabilities", (16, HTExtendedCapabilities_layout));
    ("TransmitBeamformingCapabilities", (32, TransmitBeamformingCapabilities_layout));
    ("ASELCapability", (8, ASELCapability_layout));
    ("SupportedMCSSetFlags", (32, SupportedMCSSetFlags_layout));
    ("HTOperationInformation", (64, HTOperationInformation_layout));
    ("MeshFormationInfo", (8, MeshFormationInfo_layout));
    ("MeshCapability", (8, MeshCapability_layout));
    ("EncodedRate", (8, EncodedRate_layout)) ].
