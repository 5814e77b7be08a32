(** Positions of the fields of the bit field structures as IEEE Std 802.11-2020 numbers the bits
    (first bit, number of bits). Bits not listed are reserved or not offered by the crate. *)
From Coq Require Import List NArith String.
Import ListNotations.
Local Open Scope string_scope.
Local Open Scope N_scope.

Definition std_positions : list (string * list (string * (N * N))) := [
  (* 9.4.1.8: AID in the 14 LSBs, both MSBs 1 *)
  ("AssociationID", [("internal_aid", (0, 14)); ("padding", (14, 2))]);
  (* 9.4.1.4, Figure 9-83 *)
  ("CapabilitiesInformation",
    [("is_ess", (0, 1)); ("is_ibss", (1, 1)); ("is_confidentiality_required", (4, 1));
     ("is_short_preamble_allowed", (5, 1)); ("is_spectrum_management_implemented", (8, 1));
     ("is_qos_implemented", (9, 1)); ("is_short_time_slot_in_use", (10, 1));
     ("is_auto_power_save_implemented", (11, 1)); ("is_radio_measurement_implemented", (12, 1));
     ("is_epd_implemented", (13, 1))]);
  (* 9.2.4.1: bits 8 to 15 of the frame control field *)
  ("FCFFlags",
    [("to_ds", (0, 1)); ("from_ds", (1, 1)); ("more_fragments", (2, 1)); ("retry", (3, 1));
     ("pwr_mgmt", (4, 1)); ("more_data", (5, 1)); ("protected", (6, 1)); ("order", (7, 1))]);
  ("FrameControlField", [("version", (0, 2)); ("frame_type", (2, 6)); ("flags", (8, 8))]);
  (* 9.2.4.4 *)
  ("SequenceControl", [("fragment_number", (0, 4)); ("sequence_number", (4, 12))]);
  (* 19.3.9.4.3: HT-SIG1 bits 0..23, then HT-SIG2 bits 0..7; bits 28, 29 are the STBC field,
     which the crate calls spatial_stream_count *)
  ("HtSig",
    [("mcs", (0, 7)); ("is_40mhz", (7, 1)); ("ht_length", (8, 16)); ("smoothing_recommended", (24, 1));
     ("not_sounding", (25, 1)); ("reserved", (26, 1)); ("is_ampdu", (27, 1));
     ("spatial_stream_count", (28, 2)); ("is_ldpc", (30, 1)); ("short_gi", (31, 1))]);
  (* 12.7.2, Figure 12-36 *)
  ("KeyInformation",
    [("key_descriptor_version", (0, 3)); ("is_pairwise", (3, 1)); ("install", (6, 1));
     ("key_ack", (7, 1)); ("key_mic", (8, 1)); ("secure", (9, 1)); ("error", (10, 1));
     ("request", (11, 1)); ("encrypted_key_data", (12, 1))]);
  (* Figure 12-38 *)
  ("GtkInfo", [("key_id", (0, 2)); ("tx", (2, 1))]);
  (* 9.4.2.24.4; mfp_config is MFPR and MFPC, spp_ampdu_config is SPP A-MSDU Capable and Required *)
  ("RsnCapabilities",
    [("supports_preauthentication", (0, 1)); ("no_pairwise_key", (1, 1));
     ("ptksa_replay_counter", (2, 2)); ("gtksa_replay_counter", (4, 2)); ("mfp_config", (6, 2));
     ("joint_multi_band_rsna_capable", (8, 1)); ("peer_key_enabled_handshake_capable", (9, 1));
     ("spp_ampdu_config", (10, 2)); ("pbac_capable", (12, 1));
     ("ext_key_id_for_individually_addressed_frames", (13, 1)); ("ocv_capable", (14, 1))]);
  (* 9.4.2.5 *)
  ("TIMBitmapControl", [("traffic_indicator", (0, 1)); ("bitmap_offset", (1, 7))]);
  (* 9.4.2.157.2, Figure 9-610 *)
  ("VHTCapabilitiesInfo",
    [("maximum_mpdu_length", (0, 2)); ("supported_channel_width_set", (2, 2)); ("rx_ldpc", (4, 1));
     ("short_gi_80mhz", (5, 1)); ("short_gi_160mhz", (6, 1)); ("tx_stbc", (7, 1)); ("rx_stbc", (8, 3));
     ("su_beamformer_capable", (11, 1)); ("su_beamformee_capable", (12, 1));
     ("beamformee_sts_capability", (13, 3)); ("number_of_sounding_dimensions", (16, 3));
     ("mu_beamformer_capable", (19, 1)); ("mu_beamformee_capable", (20, 1)); ("txop_ps", (21, 1));
     ("htc_vht_capable", (22, 1)); ("maximum_ampdu_length_exponent", (23, 3));
     ("vht_link_adaptation_capable", (26, 2)); ("rx_antenna_pattern_consistency", (28, 1));
     ("tx_antenna_pattern_consistency", (29, 1)); ("extended_nss_bw_support", (30, 2))]);
  (* 9.4.2.157.3, Figure 9-611 *)
  ("SupportedVHTMCSAndNSSSet",
    [("rx_vht_mcs_map", (0, 16)); ("rx_highest_supported_long_gi_data_rate", (16, 13));
     ("maximum_nsts_total", (29, 3)); ("tx_vht_mcs_map", (32, 16));
     ("tx_highest_supported_long_gi_data_rate", (48, 13)); ("vht_extended_nss_bw_capable", (61, 1))]);
  (* 9.4.2.55.2, Figure 9-387 *)
  ("HTCapabilitiesInfo",
    [("ldpc_coding_capability", (0, 1)); ("supported_channel_width_set", (1, 1));
     ("sm_power_save", (2, 2)); ("green_field", (4, 1)); ("short_gi_20mhz", (5, 1));
     ("short_gi_40mhz", (6, 1)); ("tx_stbc", (7, 1)); ("rx_stbc", (8, 2));
     ("is_max_amsdu_large", (11, 1)); ("dsss_40mhz", (12, 1)); ("forty_mhz_intolerant", (14, 1))]);
  (* 9.4.2.55.3 *)
  ("AMpduParameters", [("max_a_mpdu_length", (0, 2)); ("mpdu_density", (2, 3))]);
  (* 9.4.2.55.5 *)
  ("HTExtendedCapabilities",
    [("mcs_feedback", (8, 2)); ("plus_htc_support", (10, 1)); ("rd_responder", (11, 1))]);
  (* 9.4.2.55.6 *)
  ("TransmitBeamformingCapabilities",
    [("implicit_transmit_beamforming_receiving_capable", (0, 1));
     ("receive_staggered_sounding_capable", (1, 1)); ("transmit_staggered_sounding_capable", (2, 1));
     ("receive_ndp_capable", (3, 1)); ("transmit_ndp_capable", (4, 1));
     ("implicit_transmit_beamforming_capable", (5, 1)); ("calibration", (6, 2));
     ("explicit_csi_transmit_beamforming_capable", (8, 1));
     ("explicit_noncompressed_steering_capable", (9, 1));
     ("explicit_compressed_steering_capable", (10, 1));
     ("explicit_transmit_beamforming_csi_feedback", (11, 2));
     ("explicit_noncompressed_beamforming_feedback_capable", (13, 2));
     ("explicit_compressed_beamforming_feedback_capable", (15, 2)); ("minimal_grouping", (17, 2));
     ("csi_number_of_beamformer_antennas_supported", (19, 2));
     ("noncompresssed_steering_number_of_beamformer_antennas_supported", (21, 2));
     ("compresssed_steering_number_of_beamformer_antennas_supported", (23, 2));
     ("csi_max_number_of_rows_beamformer_supported", (25, 2));
     ("channel_estimation_capability", (27, 2))]);
  (* 9.4.2.55.7 *)
  ("ASELCapability",
    [("antenna_selection_capable", (0, 1)); ("explicit_csi_feedback_based_transmit_asel_capable", (1, 1));
     ("antenna_indices_feedback_based_transmit_asel_capable", (2, 1));
     ("explicit_csi_feedback_capable", (3, 1)); ("antenna_indices_feedback_capable", (4, 1));
     ("receive_asel_capable", (5, 1)); ("transmit_sounding_ppdus_capable", (6, 1)); ("reserved", (7, 1))]);
  (* 9.4.2.55.4: bits 80 onwards of the supported MCS set, renumbered from 0 *)
  ("SupportedMCSSetFlags",
    [("rx_highest_supported_data_rate", (0, 10)); ("tx_mcs_set_defined", (16, 1));
     ("tx_rx_mcs_set_not_equal", (17, 1)); ("tx_maximum_number_spatial_streams_supported", (18, 2));
     ("tx_unequal_modulation_supported", (20, 1))]);
  (* 9.4.2.56, Figure 9-394 *)
  ("HTOperationInformation",
    [("secondary_channel_offset", (0, 2)); ("any_channel_width", (2, 1)); ("rifs_permitted", (3, 1));
     ("ht_protection_mode", (8, 2)); ("nongreenfield_ht_sta_present", (10, 1));
     ("obss_non_ht_sta_present", (12, 1)); ("channel_center_frequency_segment_2", (13, 8));
     ("dual_beacon", (30, 1)); ("dual_cts_protection", (31, 1)); ("stbc_beacon", (32, 1))]);
  (* 9.4.2.97.7 *)
  ("MeshFormationInfo", [("connected_to_mesh_gate", (0, 1)); ("num_peerings", (1, 6)); ("connected_to_as", (7, 1))]);
  (* 9.4.2.97.8 *)
  ("MeshCapability",
    [("accept_additional_mesh_peerings", (0, 1)); ("mcca_supported", (1, 1)); ("mcca_enabled", (2, 1));
     ("forwarding", (3, 1)); ("mbca_enabled", (4, 1)); ("tbtt_adjusting", (5, 1));
     ("mesh_power_save_level", (6, 1))]);
  (* 9.4.2.3 *)
  ("EncodedRate", [("rate", (0, 7)); ("is_b", (7, 1))])
].
Fixpoint lookup {A} (k : string) (l : list (string * A)) : option A :=
  match l with [] => None | (k', v) :: l' => if String.eqb k' k then Some v else lookup k l' end.
(** first bit and width the standard gives to a field *)
Definition std_position (structure field : string) : option (N * N) :=
  match lookup structure std_positions with Some fs => lookup field fs | None => None end.
