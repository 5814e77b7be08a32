{
 "claims": [
  {
   "property": "C01",
   "status": "proved",
   "theorems": [
    "C01_attach",
    "C01_strip",
    "C01_roundtrip",
    "C01_standard",
    "C01_accepted",
    "C01_remainder",
    "C01_crc_check_value"
   ],
   "note": "All byte strings and buffers. CRC-32 (crc32fast) is modelled concretely and proved to be the standard's frame check sequence, defined by division of polynomials over GF(2). Strings shorter than four bytes panic (finding F07)."
  },
  {
   "property": "C02",
   "status": "proved",
   "theorems": [
    "C02_burst_detected",
    "C02_four_bytes_detected",
    "C02_two_bits_detected",
    "C02_three_bits_detected",
    "C02_four_bits_detected",
    "C02_five_bits_detected",
    "C02_limits",
    "C02_refused"
   ],
   "note": "Any error burst of up to 32 bits, hence any change inside four consecutive bytes, at any position of a frame of any length; up to two, three, four, five changed bits anywhere in frames of less than 2^29, up to 11454, 375, 37 bytes (the last two lengths are the limits)."
  },
  {
   "property": "C03",
   "status": "proved",
   "theorems": [
    "C03_type_matches",
    "C03_type_bits",
    "C03_fields",
    "C03_flags",
    "C03_rebuild",
    "C03_parts",
    "C03_parsed_canonical"
   ],
   "note": "All 65536 values; all canonical frame types."
  },
  {
   "property": "C04",
   "status": "partial",
   "theorems": [
    "C04_new_partial",
    "C04_new_refuted",
    "C04_partial",
    "C04_address_2_refuted",
    "C04_sequence_refuted"
   ],
   "note": "All byte strings. Strings shorter than four bytes with FCS panic (F07), four control subtypes miss their second address (F08), the sequence control field is read in native byte order (F31); everything else exactly."
  },
  {
   "property": "C05",
   "status": "partial",
   "theorems": [
    "C05_refuted",
    "C05_partial"
   ],
   "note": "The full claim is false of the code (finding F08); proved: exactly four subtypes are wrong and the answer 'has a second address' is always right."
  },
  {
   "property": "C06",
   "status": "proved",
   "theorems": [
    "C06_enums",
    "C06_injective",
    "C06_data_subtype_bits"
   ],
   "note": "26 enumerations against separately written standard tables (SpecCodes.v)."
  },
  {
   "property": "C07",
   "status": "proved",
   "theorems": [
    "C07_sequence_control",
    "C07_sequence_control_all",
    "C07_accessors",
    "C07_complete",
    "C07_determined",
    "C07_disjoint",
    "C07_out_of_range"
   ],
   "note": "22 structures against separately written standard positions (SpecLayouts.v)."
  },
  {
   "property": "C08",
   "status": "partial",
   "theorems": [
    "C08_macro",
    "C08_valid_partial",
    "C08_default_refuted",
    "C08_aid",
    "C08_unchecked"
   ],
   "note": "All numbers; the unchecked constructor agrees on its documented domain. IDs that are checked, made by the macro, received or reported by a TIM are valid; the default value is not (finding F46)."
  },
  {
   "property": "C09",
   "status": "proved",
   "theorems": [
    "C09_iteration"
   ],
   "note": "Every byte string."
  },
  {
   "property": "C10",
   "status": "proved",
   "theorems": [
    "C10_round_trip",
    "C10_strict_end_partial",
    "C10_strict_end_refuted",
    "C10_chain_format",
    "C10_too_long"
   ],
   "note": "All element lists. If the unavailable scroll version refuses empty reads at the end of a slice (strict_end), a final empty element is lost: stated as C10_strict_end_partial/_refuted."
  },
  {
   "property": "C11",
   "status": "partial",
   "theorems": [
    "C11_identifier",
    "C11_extension_id",
    "C11_is_extension",
    "C11_vendor_prefix",
    "C11_element",
    "C11_raw_extension",
    "C11_typed_extension",
    "C11_typed_extension_no_panic",
    "C11_raw_extension_size_refuted",
    "C11_measure_partial",
    "C11_measure_refuted",
    "C11_append",
    "C11_macro"
   ],
   "note": "The full claim is false of the code (finding F09: a raw element at the end of a chain is measured two bytes short); proved exactly for all chains, plus append and macro order."
  },
  {
   "property": "C12",
   "status": "partial",
   "theorems": [
    "C12_ids",
    "C12_vendor_payload",
    "C12_lookup",
    "C12_lookup_raw",
    "C12_disjoint",
    "C12_written",
    "C12_types",
    "C12_no_panic_refuted",
    "C12_panics_partial",
    "C12_first_panics_partial",
    "C12_peering_panics_partial",
    "C12_peering_first_panics_partial",
    "C12_parse_raw_refuted",
    "C12_parse_raw_partial",
    "C12_prefixed",
    "C12_prefixed_same",
    "C12_vendor_found",
    "C12_prefixed_found",
    "C12_prefix_found"
   ],
   "note": "Exact description for all bodies and all element types whose parser does not panic, including re-finding of written values. The claim 'never panics' is false for mesh peering elements and for direct parsing of short vendor elements (F11, F19); the exact conditions of both panics are proved."
  },
  {
   "property": "C13",
   "status": "proved",
   "theorems": [
    "C13_macro",
    "C13_ids",
    "C13_round_trip",
    "C13_new",
    "C13_read",
    "C13_no_panic"
   ],
   "note": "All strings and byte strings; UTF-8 is specified independently (SpecUtf8.v)."
  },
  {
   "property": "C14",
   "status": "proved",
   "theorems": [
    "C14_macros",
    "C14_rate_macro",
    "C14_rate_macro_all",
    "C14_rate_macro_special",
    "C14_ids",
    "C14_supported",
    "C14_extended",
    "C14_iterate",
    "C14_new",
    "C14_rate",
    "C14_rate_rounded",
    "C14_unrepresentable_refuted",
    "C14_rate_exact",
    "C14_unchecked_refuted"
   ],
   "note": "All rate lists; all rates, exactly (rounded down below 64 Mbit/s). Values outside the documented domain are recorded as findings (F12)."
  },
  {
   "property": "C15",
   "status": "proved",
   "theorems": [
    "C15_dsss",
    "C15_ibss",
    "C15_bss_load",
    "C15_ht_capabilities",
    "C15_vht_capabilities",
    "C15_vht_operation",
    "C15_mesh_configuration"
   ],
   "note": "Seven element types: one to one correspondence of values and byte strings, short input refused, no panic."
  },
  {
   "property": "C16",
   "status": "partial",
   "theorems": [
    "C16_refuted",
    "C16_partial",
    "C16_read_partial",
    "C16_short_refuted",
    "C16_received"
   ],
   "note": "The full claim is false of the code (finding F17); proved: exactly what survives, and what is read from any bytes."
  },
  {
   "property": "C17",
   "status": "partial",
   "theorems": [
    "C17_format",
    "C17_standard_format",
    "C17_round_trip_partial",
    "C17_equality",
    "C17_measure_partial",
    "C17_measure_exact",
    "C17_pmkid_measure_refuted",
    "C17_pmkid_count_refuted",
    "C17_pmkid_spill",
    "C17_pmkid_ssid_refuted",
    "C17_pmkid_hides_refuted",
    "C17_pmkid_read_refuted",
    "C17_big_endian_refuted",
    "C17_strict_end_refuted",
    "C17_parse",
    "C17_no_panic",
    "C17_forward"
   ],
   "note": "The full claim is false of the code (findings F05, F06, F31): PMKID lists are measured and counted wrongly, capabilities are read in native byte order. Proved: exact format, exact measure, round trip for all gap-free elements on little endian targets, exact description of parsing for all byte strings, forwarding."
  },
  {
   "property": "C18",
   "status": "partial",
   "theorems": [
    "C18_spp_written",
    "C18_spp_read_partial",
    "C18_spp_read_refuted",
    "C18_spp_exact",
    "C18_cipher_selectors",
    "C18_cipher_suites",
    "C18_akm_selectors",
    "C18_akm_suites",
    "C18_cipher_lengths",
    "C18_akm_lengths",
    "C18_akm_no_lengths",
    "C18_akm_table",
    "C18_compatible_sound_partial",
    "C18_compatible_refuted",
    "C18_compatible_symmetric",
    "C18_compatible_exact",
    "C18_mfp_bits_partial",
    "C18_mfp_capable_refuted",
    "C18_mfp_round_trip_refuted",
    "C18_mfp_received_refuted",
    "C18_mfp_exact"
   ],
   "note": "Selectors and length tables for all selectors/suites; the compatibility check is sound but not complete and the two protection bits are not encoded as in the standard (findings F03, F04)."
  },
  {
   "property": "C19",
   "status": "partial",
   "theorems": [
    "C19_refuted",
    "C19_partial",
    "C19_exact_partial",
    "C19_new_raw",
    "C19_oversized_refuted",
    "C19_panics"
   ],
   "note": "The full claim is false of the code (finding F14: the first bit of a bitmap with an offset is skipped); proved: exactly what every received element reports."
  },
  {
   "property": "C20",
   "status": "partial",
   "theorems": [
    "C20_list_partial",
    "C20_range_partial",
    "C20_static_behaviour_partial",
    "C20_static_partial",
    "C20_static_empty",
    "C20_static_shift_refuted",
    "C20_static_group_refuted",
    "C20_static_length_refuted",
    "C20_static_element_refuted",
    "C20_zero_refuted"
   ],
   "note": "The full claim is false of the code (findings F13, F14, F15). Proved: the macros put exactly the given IDs on the air; exact description of what new_static bitmaps report, with the cases in which the claim holds."
  },
  {
   "property": "C21",
   "status": "partial",
   "theorems": [
    "C21_id",
    "C21_read",
    "C21_no_panic",
    "C21_refuses",
    "C21_round_trip",
    "C21_announced",
    "C21_indicator_refuted"
   ],
   "note": "Parser and refusal completely; round trip for every element with a bitmap of any kind or none. An indicator without bitmap is read back as a bitmap of one zero byte (finding F31)."
  },
  {
   "property": "C22",
   "status": "proved",
   "theorems": [
    "C22_owe",
    "C22_owe_format",
    "C22_mac_address",
    "C22_pmkid",
    "C22_nonce",
    "C22_lifetime",
    "C22_gtk"
   ],
   "note": "All values. Under strict_end an OWE element without SSID and band cannot be read back."
  },
  {
   "property": "C23",
   "status": "partial",
   "theorems": [
    "C23_open",
    "C23_confirm",
    "C23_close",
    "C23_round_trip",
    "C23_robust_partial",
    "C23_robust_refuted",
    "C23_byte_order_refuted"
   ],
   "note": "Construction, interpretation and round trip for all parameters; 'does not panic' is false beyond 24 bytes (finding F19)."
  },
  {
   "property": "C24",
   "status": "partial",
   "theorems": [
    "C24_beacon",
    "C24_probe_response",
    "C24_probe_request",
    "C24_authentication",
    "C24_association_request",
    "C24_association_response",
    "C24_deauthentication",
    "C24_disassociation",
    "C24_raw_action",
    "C24_vendor_action",
    "C24_mesh_open",
    "C24_mesh_confirm",
    "C24_mesh_close",
    "C24_containers",
    "C24_order_refuted",
    "C24_ht_refuted",
    "C24_strict_end_refuted",
    "C24_subtype_unchecked"
   ],
   "note": "All 13 frame types, all headers whose order flag agrees with the presence of the HT control field (otherwise false: F22), all element contents; a frame without elements is unreadable if scroll refuses empty reads at the end (strict_end)."
  },
  {
   "property": "C25",
   "status": "partial",
   "theorems": [
    "C25_partial",
    "C25_action_partial",
    "C25_refuted",
    "C25_bodies",
    "C25_containers"
   ],
   "note": "Exact for nine frame types; vendor specific and mesh peering action frames announce one byte too little (finding F29), proved exactly."
  },
  {
   "property": "C26",
   "status": "proved",
   "theorems": [
    "C26_no_panic"
   ],
   "note": "All byte strings, all 13 frame types; with FCS exactly the strings shorter than four bytes panic (finding F07)."
  },
  {
   "property": "C27",
   "status": "partial",
   "theorems": [
    "C27_history",
    "C27_add",
    "C27_finish_partial",
    "C27_static",
    "C27_fcs_refuted"
   ],
   "note": "Any history of successful and failed additions. The FCS is written in native byte order, so frames with FCS are wrong on big endian targets (finding F31)."
  },
  {
   "property": "C28",
   "status": "partial",
   "theorems": [
    "C28_round_trip",
    "C28_length_partial",
    "C28_length_refuted",
    "C28_received",
    "C28_addresses",
    "C28_frame_control"
   ],
   "note": "All control frames; the announced length of acknowledgements is wrong (finding F20). The frame control field is not part of the library's reader and writer."
  },
  {
   "property": "C29",
   "status": "partial",
   "theorems": [
    "C29_partial",
    "C29_length",
    "C29_received",
    "C29_no_panic",
    "C29_big_endian_refuted",
    "C29_optional_refuted",
    "C29_written",
    "C29_payload_refuted",
    "C29_unknown_subtype_refuted",
    "C29_piggyback",
    "C29_big_endian_exact",
    "C29_big_endian_twice"
   ],
   "note": "All headers whose optional fields agree with the flags and the subtype, all payloads, both FCS settings; otherwise false (finding F22), as on big endian targets (F31). Null frames lose their payload, unknown subtypes are refused."
  },
  {
   "property": "C30",
   "status": "partial",
   "theorems": [
    "C30_partial",
    "C30_mut_partial",
    "C30_mut_refuted",
    "C30_bssid_refuted"
   ],
   "note": "Address roles for all four DS combinations; with an A-MSDU the mutable and the immutable BSSID accessor disagree (finding F23)."
  },
  {
   "property": "C31",
   "status": "partial",
   "theorems": [
    "C31_fields_partial",
    "C31_roles_partial",
    "C31_selections",
    "C31_fields",
    "C31_from_ds_exchanged",
    "C31_from_ds_refuted",
    "C31_both_amsdu_refuted"
   ],
   "note": "All call chains the types admit. Flags, subtype and payload always; address fields and roles unless source or BSSID follow the destination in a frame from the DS (finding F24: the builder then exchanges them); the BSSID of an A-MSDU with both DS flags is not reported. C31_fields says for every chain what the fields hold."
  },
  {
   "property": "C32",
   "status": "partial",
   "theorems": [
    "C32_partial",
    "C32_others_never",
    "C32_qos_refuted",
    "C32_order_refuted",
    "C32_fourth_refuted"
   ],
   "note": "All chains for data and null data frames without order flag and with all four addresses where needed; QoS frames, the order flag and a missing fourth address give frames that no reader returns, whatever is received (C32_others_never), and that read back differently (finding F24)."
  },
  {
   "property": "C33",
   "status": "partial",
   "theorems": [
    "C33_received_length",
    "C33_write",
    "C33_iterate",
    "C33_frame",
    "C33_iterate_all_partial",
    "C33_length_partial",
    "C33_length_refuted",
    "C33_buffer_refuted",
    "C33_any_buffer",
    "C33_frame_any_buffer",
    "C33_standard_refuted",
    "C33_panic_refuted"
   ],
   "note": "Any list of subframes. The full claim is false of the code (finding F26): the length field is little endian, the last subframe is padded, the announced length of a frame holding one is short, the iterator panics on truncated subframes. What any buffer gives is proved (C33_any_buffer, C33_frame_any_buffer)."
  },
  {
   "property": "C34",
   "status": "partial",
   "theorems": [
    "C34_partial",
    "C34_received_partial",
    "C34_short",
    "C34_key_id_refuted",
    "C34_reject_partial",
    "C34_reject_refuted"
   ],
   "note": "All headers and packet numbers below 2^48. The key ID is shifted the wrong way on reading, so none but zero survives, and the constructor refuses arguments only if both are out of range (findings F01, F02); what is read is proved exactly for any eight bytes."
  },
  {
   "property": "C35",
   "status": "partial",
   "theorems": [
    "C35_payload",
    "C35_wrap",
    "C35_round_trip",
    "C35_amsdu",
    "C35_header",
    "C35_received_partial",
    "C35_panic_refuted"
   ],
   "note": "All payloads and MIC lengths; reading a protected frame shorter than header and MIC panics (finding F25)."
  },
  {
   "property": "C36",
   "status": "partial",
   "theorems": [
    "C36_partial",
    "C36_big_endian_refuted",
    "C36_big_endian",
    "C36_big_endian_keys",
    "C36_total",
    "C36_block",
    "C36_block_invertible",
    "C36_keys",
    "C36_messages"
   ],
   "note": "All keys and messages on little endian targets: the code computes the standard's Michael function (SpecMichael.v); on big endian targets the key is taken apart the wrong way round (finding F34). Also: the block function is invertible, distinct keys and distinct single words give distinct codes."
  },
  {
   "property": "C37",
   "status": "partial",
   "theorems": [
    "C37_format",
    "C37_length",
    "C37_read_partial",
    "C37_strict_end_refuted",
    "C37_length_field_refuted",
    "C37_received",
    "C37_read_exact",
    "C37_no_panic",
    "C37_data_frame",
    "C37_ranges"
   ],
   "note": "All key frames, any key data. Frames of 64 KiB and more are written with truncated length fields (finding F27); empty key data is unreadable if scroll refuses empty reads at the end (strict_end). C37_read_exact: exactly which byte strings are accepted, and as what."
  },
  {
   "property": "C38",
   "status": "partial",
   "theorems": [
    "C38_hmac_sha1",
    "C38_prf",
    "C38_length",
    "C38_prefix",
    "C38_pieces",
    "C38_one_piece",
    "C38_counter_refuted",
    "C38_pmkid"
   ],
   "note": "Any HMAC with 20 bytes of output, any key, label, data and length up to 256 blocks; beyond, the one byte counter wraps and the output repeats (finding F28)."
  },
  {
   "property": "C39",
   "status": "proved",
   "theorems": [
    "C39_symmetric",
    "C39_symmetric_addresses",
    "C39_symmetric_nonces",
    "C39_ptk"
   ],
   "note": "Any HMAC, keys, addresses, nonces and lengths; with the standard's formula for up to 256 blocks."
  },
  {
   "property": "C40",
   "status": "proved",
   "theorems": [
    "C40_partition",
    "C40_refused"
   ],
   "note": "All PTKs and suites, both directions. The code returns None instead of panicking."
  },
  {
   "property": "C41",
   "status": "partial",
   "theorems": [
    "C41_aes_key_wrap",
    "C41_sent",
    "C41_outcome",
    "C41_short",
    "C41_no_payload",
    "C41_panics_partial",
    "C41_round_trip_partial",
    "C41_mic_field_refuted",
    "C41_mic_field",
    "C41_arrives",
    "C41_sent_arrives",
    "C41_empty_data_refuted",
    "C41_empty_data",
    "C41_long_mic_refuted",
    "C41_short_buffer_refuted"
   ],
   "note": "Any HMAC and any invertible key wrap (SHA-1 and AES key wrap are proved to be such). The full claim is false of the code (finding F27): a non-zero MIC field, empty encrypted key data, 24 byte MICs and short temporary buffers. All outcomes, errors and panics included, are proved, for buffers with room for the plain frame and for shorter ones; and what any receiver, with any keys, makes of a sent frame."
  },
  {
   "property": "C42",
   "status": "proved",
   "theorems": [
    "C42_authenticated",
    "C42_fields",
    "C42_not_announced",
    "C42_fcs_ignored",
    "C42_tampered",
    "C42_outcome"
   ],
   "note": "All byte strings and keys. A frame that does not announce a MIC is not checked, nor is the FCS (stated as theorems). C42_outcome gives the result for every byte string: the returned frame, the error or the panic."
  },
  {
   "property": "C43",
   "status": "partial",
   "theorems": [
    "C43_panics_partial",
    "C43_panics_fcs_partial",
    "C43_short_refuted",
    "C43_mic_refuted",
    "C43_data_refuted",
    "C43_length_refuted",
    "C43_temp_refuted"
   ],
   "note": "The full claim is false of the code (finding F27); proved: exactly which byte strings panic, with one witness for each of the five cases."
  },
  {
   "property": "C44",
   "status": "partial",
   "theorems": [
    "C44_matches",
    "C44_action_matches",
    "C44_exclusive",
    "C44_parse",
    "C44_data",
    "C44_dispatch",
    "C44_order",
    "C44_written",
    "C44_with_fcs_refuted",
    "C44_eapol_partial",
    "C44_eapol_refuted"
   ],
   "note": "All frames and all pairs of types, dispatch independent of the order of the arms. with_fcs: false is taken for true (finding F21) and is_eapol_key_frame accepts all EAPOL frames."
  },
  {
   "property": "C45",
   "status": "partial",
   "theorems": [
    "C45_match",
    "C45_parsed",
    "C45_oui",
    "C45_append",
    "C45_header_length",
    "C45_strip",
    "C45_append_strip",
    "C45_strip_result",
    "C45_strip_offset",
    "C45_offset_refuted",
    "C45_again",
    "C45_several_refuted",
    "C45_append_result",
    "C45_append_short"
   ],
   "note": "All byte strings. The full claim is false of the code: a failed check moves the offset (finding F43); the exact offset after every outcome is proved."
  },
  {
   "property": "C46",
   "status": "partial",
   "theorems": [
    "C46_query",
    "C46_query_none",
    "C46_iter",
    "C46_build_partial",
    "C46_long_refuted",
    "C46_release_exact",
    "C46_unlisted_refuted"
   ],
   "note": "Queries and iteration for all maps; construction only up to four streams: the full claim is false of the code (finding F16); what becomes of longer lists is proved exactly for both kinds of build."
  },
  {
   "property": "C47",
   "status": "partial",
   "theorems": [
    "C47_indices",
    "C47_listing",
    "C47_range",
    "C47_generate_partial",
    "C47_generate_refuted",
    "C47_flags_refuted",
    "C47_flags_partial"
   ],
   "note": "Receive mask construction and iteration; index 76 is dropped by the function form and the transmit flag predicates are wrong (finding F18)."
  },
  {
   "property": "C48",
   "status": "partial",
   "theorems": [
    "C48_builder",
    "C48_view",
    "C48_fields",
    "C48_history",
    "C48_constants_bytes",
    "C48_transition_refuted",
    "C48_constants_partial",
    "C48_owe_refuted"
   ],
   "note": "All builder sequences with the exact content of every field; all predefined elements except OWE, for which the claim is false (finding F06); the element for WPA2 and WPA3 stations requires management frame protection (finding F39)."
  },
  {
   "property": "C49",
   "status": "partial",
   "theorems": [
    "C49_partial",
    "C49_action_partial",
    "C49_aid_refuted",
    "C49_version_refuted"
   ],
   "note": "All accepted byte strings of protocol version 0; association IDs (association response, mesh confirm) must have their two top bits set, otherwise they are changed."
  },
  {
   "property": "C50",
   "status": "partial",
   "theorems": [
    "C50_read_iterator",
    "C50_amsdu",
    "C50_forward",
    "C50_len_partial",
    "C50_len_fixed",
    "C50_len_refuted"
   ],
   "note": "All item types, byte strings and numbers of calls; the reported length is the number of items only if every item is one byte long (finding F10)."
  },
  {
   "property": "C51",
   "status": "partial",
   "theorems": [
    "C51_partial",
    "C51_length",
    "C51_refuted"
   ],
   "note": "All accepted byte strings of protocol version 0 on little endian targets; the version bits and bytes behind a null frame are dropped (finding F30)."
  },
  {
   "property": "C52",
   "status": "proved",
   "theorems": [
    "C52_beacon",
    "C52_probe",
    "C52_beacon_total",
    "C52_probe_total",
    "C52_first",
    "C52_written",
    "C52_hidden"
   ],
   "note": "All element sequences and byte strings. If scroll refuses empty reads at the end of data (strict_end), an empty SSID is not seen."
  },
  {
   "property": "C53",
   "status": "partial",
   "theorems": [
    "C53_beacon",
    "C53_atim_round_trip",
    "C53_atim_partial",
    "C53_atim_exact",
    "C53_atim_refuted"
   ],
   "note": "All received beacons, windows and durations below 65536 time units; longer ones are truncated (finding F28)."
  },
  {
   "property": "C54",
   "status": "partial",
   "theorems": [
    "C54_tim",
    "C54_tim_reflexive",
    "C54_tim_symmetric",
    "C54_tim_transitive",
    "C54_tim_written",
    "C54_tim_length_refuted",
    "C54_rates",
    "C54_rates_written",
    "C54_rates_received",
    "C54_rsn",
    "C54_rsn_pmkid_refuted",
    "C54_rsn_written"
   ],
   "note": "All TIM, rates and RSN elements in all representations; equal TIM elements can announce different lengths (finding F13), and received RSN elements with different PMKIDs are equal (finding F05)."
  },
  {
   "property": "C55",
   "status": "proved",
   "theorems": [
    "C55_get",
    "C55_set"
   ],
   "note": "All 32 bit values and all lengths."
  },
  {
   "property": "C56",
   "status": "partial",
   "theorems": [
    "C56_wrap",
    "C56_aes",
    "C56_unwrap_refuted",
    "C56_received_refuted"
   ],
   "note": "Any block cipher; AES is proved to be one. Length and error exactly; the result is RFC 5649 padded wrapping, which the receiver's RFC 3394 unwrapping never accepts (finding F35)."
  },
  {
   "property": "C57",
   "status": "proved",
   "theorems": [
    "C57_psk",
    "C57_length",
    "C57_prefix"
   ],
   "note": "Any HMAC with 20 bytes of output, all passphrases, SSIDs and output lengths. PBKDF2 (pbkdf2 crate) is modelled as in RFC 8018; vectors of RFC 6070 are checked beside the model."
  },
  {
   "property": "C58",
   "status": "partial",
   "theorems": [
    "C58_mgmt_partial",
    "C58_fcs_refuted",
    "C58_action_partial",
    "C58_action_refuted",
    "C58_data_partial",
    "C58_data_refuted",
    "C58_subframe_partial",
    "C58_subframe_refuted",
    "C58_control",
    "C58_crypto_header",
    "C58_encapsulated",
    "C58_key_frame"
   ],
   "note": "Exact sizes for all accepted byte strings. The full claim is false of the code (finding F36): payloads of data and action frames and the FCS are not counted; missing A-MSDU padding is."
  },
  {
   "property": "C59",
   "status": "partial",
   "theorems": [
    "C59_partial",
    "C59_refuted",
    "C59_distinct",
    "C59_prefix_free"
   ],
   "note": "All received elements and all made by new_static and tim_bitmap!; hand-made StaticBitmap values that differ behind the used part violate the law (finding F37)."
  },
  {
   "property": "C60",
   "status": "partial",
   "theorems": [
    "C60_mgmt_partial",
    "C60_sequence_refuted",
    "C60_data_partial",
    "C60_duration_refuted",
    "C60_control_partial",
    "C60_rts_refuted",
    "C60_rts_exact"
   ],
   "note": "All accepted byte strings of all typed readers. The full claim is false of the code: byte order of sequence control and duration on big endian targets (finding F31), transmitter of RTS frames (finding F08)."
  },
  {
   "property": "C61",
   "status": "partial",
   "theorems": [
    "C61_mgmt",
    "C61_data_partial",
    "C61_beacon_elements"
   ],
   "note": "All values, arms, buffers and element chains; on big endian targets data frames arrive with duration and sequence control byte-swapped (finding F31), exactly. Frames without elements need a scroll that accepts empty reads at the end (strict_end = false)."
  },
  {
   "property": "C62",
   "status": "partial",
   "theorems": [
    "C62_keys",
    "C62_handshake_partial",
    "C62_padding_partial",
    "C62_padding_refuted",
    "C62_padding_elements",
    "C62_padding_ssid",
    "C62_kdes"
   ],
   "note": "Any HMAC and key wrap, all values. The full claim is false of the code: the MIC field of the caller must be zero and MICs have 16 bytes (finding F27); the padding is not removed and reads as an SSID (finding F38)."
  },
  {
   "property": "C63",
   "status": "proved",
   "theorems": [
    "C63_mgmt",
    "C63_action",
    "C63_data",
    "C63_longer",
    "C63_longer_action",
    "C63_longer_data",
    "C63_longer_elements",
    "C63_longer_lookup"
   ],
   "note": "Both directions for all byte strings; what the reading library does at the end of data is a parameter (strict_end)."
  },
  {
   "property": "C64",
   "status": "partial",
   "theorems": [
    "C64_elements",
    "C64_actions",
    "C64_data_partial",
    "C64_big_endian_refuted",
    "C64_big_endian_exact"
   ],
   "note": "All byte strings accepted by each management reader and, on little endian targets, by the data frame reader; on big endian targets the claim is false of data frames (finding F31), the exact difference is proved."
  },
  {
   "property": "C65",
   "status": "proved",
   "theorems": [
    "C65_elements",
    "C65_actions",
    "C65_data",
    "C65_control",
    "C65_chains",
    "C65_key_frames"
   ],
   "note": "All pairs of admissible values, for both kinds of reading library and endianness."
  },
  {
   "property": "C66",
   "status": "partial",
   "theorems": [
    "C66_numeral",
    "C66_number_list",
    "C66_aid",
    "C66_bitmap_bytes",
    "C66_bitmap",
    "C66_element",
    "C66_element_text",
    "C66_received",
    "C66_defmt_partial",
    "C66_element_defmt",
    "C66_group_traffic_refuted",
    "C66_defmt_refuted",
    "C66_pmkid",
    "C66_pmkid_distinct",
    "C66_pmkid_refuted",
    "C66_rate",
    "C66_rate_distinct",
    "C66_vht_map",
    "C66_vht_map_distinct",
    "C66_iterator",
    "C66_iterator_exhausted",
    "C66_ssid",
    "C66_owe",
    "C66_owe_distinct"
   ],
   "note": "Plain format of the hand-written implementations, all values. The full claim is false of the code: defmt prints a stray empty list (finding F40) and PMKIDs lose leading zeros (finding F41)."
  },
  {
   "property": "C67",
   "status": "partial",
   "theorems": [
    "C67_result",
    "C67_length",
    "C67_refused_partial",
    "C67_refused_refuted",
    "C67_malformed",
    "C67_not_encrypted",
    "C67_accepted",
    "C67_twice_refuted",
    "C67_again"
   ],
   "note": "All frames, keys and AKM suites. The full claim is false of the code: an accepted encrypted frame is refused the second time (never accepted with the same KCK unless the MIC collides), and a malformed key frame is refused only after decryption (finding F42). The buffer after a panic is modelled but nothing is claimed about it beyond its length."
  },
  {
   "property": "C68",
   "status": "partial",
   "theorems": [
    "C68_no_panic",
    "C68_contained",
    "C68_same",
    "C68_larger",
    "C68_elements",
    "C68_peering",
    "C68_tim",
    "C68_tim_refuted",
    "C68_wrapped",
    "C68_raw",
    "C68_containers",
    "C68_mgmt",
    "C68_control",
    "C68_data",
    "C68_data_panics",
    "C68_data_refuted",
    "C68_key_frame",
    "C68_snap",
    "C68_crypto_partial",
    "C68_crypto_refuted",
    "C68_crypto_exact",
    "C68_crypto_frame",
    "C68_crypto_frame_panics",
    "C68_amsdu_partial",
    "C68_amsdu_refuted"
   ],
   "note": "All values and buffers. The full claim is false of the code: A-MSDU padding is what was in the buffer (finding F44), a wrapped payload with a MIC, one TIM bitmap made by a macro and unknown data subtypes with overflow checks panic; proved for everything else, with exact conditions for TIM and mesh peering elements, data frames and payloads with a MIC."
  },
  {
   "property": "C69",
   "status": "proved",
   "theorems": [
    "C69_answer",
    "C69_receiver",
    "C69_short",
    "C69_safe",
    "C69_data",
    "C69_receiver_panics",
    "C69_amsdu_panics",
    "C69_protected_panics"
   ],
   "note": "All byte strings. The cases that panic are findings F07, F19, F25 and F26; the condition is exact in both directions, with complete frames as witnesses. Not covered: parse_raw_element_as (finding F11, C12), EAPOL (C43) and the raw and vendor action bodies, which hold no elements (C26)."
  },
  {
   "property": "C70",
   "status": "proved",
   "theorems": [
    "C70_own",
    "C70_lookup",
    "C70_raw",
    "C70_inserted",
    "C70_strict_end_refuted",
    "C70_frames"
   ],
   "note": "All byte strings. With scroll versions that refuse empty reads at the end, an empty last element is not seen, so inserting something behind it makes it visible (C70_strict_end_refuted); otherwise without restriction."
  },
  {
   "property": "C71",
   "status": "partial",
   "theorems": [
    "C71_result",
    "C71_untouched",
    "C71_after",
    "C71_beyond",
    "C71_clear",
    "C71_clear_refuted",
    "C71_short",
    "C71_short_some"
   ],
   "note": "All outcomes; if the plain frame does not fit, the buffer has bytes of it or what was there (C71_short). The last part is false of the code: whenever key data cannot be encrypted for want of a key or of room, the plain frame is left in the caller's buffer (finding F45)."
  },
  {
   "property": "C72",
   "status": "partial",
   "theorems": [
    "C72_elements_partial",
    "C72_mgmt_partial",
    "C72_frames_partial",
    "C72_keys_partial",
    "C72_dynamic",
    "C72_receive",
    "C72_is_eapol",
    "C72_data_exact",
    "C72_sequence_exact",
    "C72_rsn_exact",
    "C72_peering_exact",
    "C72_dynamic_fcs_exact",
    "C72_refuted"
   ],
   "note": "False of the code in native byte order (data frame headers, the generic view's sequence control, RSN capabilities, mesh peering elements, the FCS of dynamic frames; Michael: C36); for these the exact difference is proved for all inputs, all other functions are proved to be the same."
  },
  {
   "property": "C73",
   "status": "proved",
   "theorems": [
    "C73_elements",
    "C73_mgmt",
    "C73_frames",
    "C73_keys",
    "C73_dynamic",
    "C73_constructors",
    "C73_tim",
    "C73_write",
    "C73_eapol"
   ],
   "note": "All modelled functions; what the release build does where the debug build panics is in C08, C14, C19, C43, C46."
  },
  {
   "property": "C74",
   "status": "proved",
   "theorems": [
    "C74_refused",
    "C74_behind",
    "C74_any",
    "C74_done",
    "C74_some",
    "C74_front",
    "C74_elements",
    "C74_wrapped",
    "C74_containers",
    "C74_bodies",
    "C74_mgmt",
    "C74_data",
    "C74_ctrl",
    "C74_chain_straight",
    "C74_mgmt_straight",
    "C74_data_straight",
    "C74_dynamic",
    "C74_dynamic_some"
   ],
   "note": "All writers of the library as programs of stores (C74_elements to C74_ctrl), any buffer. For a checksum over padding bytes that were left alone (A-MSDU with FCS) the value of its bytes is not stated. A field filled in afterwards may still be missing while what follows is there (C74_ex)."
  },
  {
   "property": "C75",
   "status": "partial",
   "theorems": [
    "C75_mgmt",
    "C75_action",
    "C75_data",
    "C75_crypto",
    "C75_ctrl",
    "C75_subframe",
    "C75_key_partial",
    "C75_key_refuted",
    "C75_key_exact",
    "C75_generic_refuted",
    "C75_ssid_refuted",
    "C75_write",
    "C75_write_encoded",
    "C75_larger"
   ],
   "note": "All byte strings and continuations, all writers and buffers. False of the code for the generic view, key frames with too small an announced length and over-long SSIDs (finding F47). With FCS nothing is claimed: the checksum is in the last bytes, whichever these are."
  },
  {
   "property": "C76",
   "status": "partial",
   "theorems": [
    "C76_text",
    "C76_rates",
    "C76_rates_iterator",
    "C76_tim",
    "C76_mesh_peering",
    "C76_gtk",
    "C76_vendor",
    "C76_fixed",
    "C76_ht_capabilities",
    "C76_owe_partial",
    "C76_owe_strict_end_refuted",
    "C76_owe_exact",
    "C76_rsn_partial",
    "C76_rsn_exact",
    "C76_rsn_announced_partial",
    "C76_rsn_pmkid_refuted",
    "C76_ht_operation_exact",
    "C76_ht_operation_refuted",
    "C76_element"
   ],
   "note": "All 22 element types, all bodies. False of the code for HT operation (finding F17: exactly what is written and when it survives) and RSN elements with PMKIDs (finding F05: exactly by how much the announced length is short). C76_rsn_exact and C76_owe_exact say what is written and read again on every target and scroll version: big endian targets exchange the two bytes of the RSN capabilities, and scroll versions that refuse empty reads at the end lose an empty list or refuse an empty SSID there."
  },
  {
   "property": "C77",
   "status": "partial",
   "theorems": [
    "C77_hops",
    "C77_received",
    "C77_access_point",
    "C77_documented_order_refuted",
    "C77_whole_way"
   ],
   "note": "Any number of hops, each machine with its own byte order and build; all headers and payloads, all accepted frames. Addresses, payload, flags, QoS and HT control always; duration and sequence control exactly (they are twisted by every big endian machine, finding F31). Rebuilding with the builder: frames without A-MSDU; the documented order of calls exchanges source and BSSID for every frame (finding F24)."
  },
  {
   "property": "C78",
   "status": "partial",
   "theorems": [
    "C78_in_order",
    "C78_all_arrive",
    "C78_panic_refuted",
    "C78_unannounced_refuted",
    "C78_sent"
   ],
   "note": "All histories. The reduction is exact: what was never sent is taken only if a byte string that is heard carries a correct MIC of it (is_forged, SpecReplay.v). The unconditional claim is false of the code: a short frame of anybody makes the receiver panic (finding F27), and a KCK given by the caller does not make the library insist on a MIC (finding F48)."
  },
  {
   "property": "C79",
   "status": "proved",
   "theorems": [
    "C79_noise"
   ],
   "note": "All histories of intact and damaged copies; damage as far as the frame check sequence reveals all of it (C02). As in C61, data frames arrive with two header fields byte-swapped on big endian targets (finding F31), exactly as stated in SpecNoise.v."
  },
  {
   "property": "C80",
   "status": "proved",
   "theorems": [
    "C80_same",
    "C80_independent",
    "C80_keys",
    "C80_collision",
    "C80_prf",
    "C80_prf_same",
    "C80_zero_label_refuted"
   ],
   "note": "All sessions, labels and data; a label with a zero byte is not separated from the data that follow (C80_zero_label_refuted; the labels of the standard have none). Beyond 256 blocks the output repeats (C38_counter_refuted)."
  },
  {
   "property": "C81",
   "status": "partial",
   "theorems": [
    "C81_sent",
    "C81_any_data",
    "C81_received",
    "C81_no_oracle_partial",
    "C81_oracle_refuted"
   ],
   "note": "All keys, key data and buffers (any buffer if scroll accepts empty writes at the end of a buffer, else buffers with room for the plain frames); for every sent frame and every other key data of the same padded length a key wrap is given that makes the same frame. The last part is false of the code: a frame that announces no MIC is decrypted and answered (findings F48, F49). Timing is not modelled."
  },
  {
   "property": "C82",
   "status": "proved",
   "theorems": [
    "C82_elements",
    "C82_elements_most",
    "C82_lookup",
    "C82_iterator",
    "C82_amsdu",
    "C82_amsdu_most",
    "C82_tim",
    "C82_tim_most",
    "C82_rsn"
   ],
   "note": "All byte strings; A-MSDUs and TIM elements on which the iteration panics (C33, C19) yield nothing."
  },
  {
   "property": "C83",
   "status": "partial",
   "theorems": [
    "C83_mgmt_received",
    "C83_data_received",
    "C83_mgmt_sent",
    "C83_data_sent",
    "C83_time_received",
    "C83_time_sent",
    "C83_big_endian_refuted"
   ],
   "note": "Any body type, any bytes and buffers. The claim is false only of numbers in data frames received on big endian machines (finding F31)."
  },
  {
   "property": "C84",
   "status": "partial",
   "theorems": [
    "C84_told",
    "C84_history",
    "C84_macro_partial",
    "C84_macro_refuted",
    "C84_static_refuted",
    "C84_static_next_refuted"
   ],
   "note": "All histories, stations and beacons for bitmaps handed over whole (new_raw). False for tim_bitmap! if the lowest ID is a multiple of 16 (finding F14; exactly then, C84_macro_partial) and for new_static (finding F13)."
  },
  {
   "property": "C85",
   "status": "partial",
   "theorems": [
    "C85_again",
    "C85_once",
    "C85_no_more",
    "C85_counter",
    "C85_big_endian_refuted"
   ],
   "note": "All histories of arrivals, for the numbers as the receiver reads them (C85_once) and for the standard's counters on little endian machines (C85_counter). False on big endian machines for a transmitter of data and management frames (finding F31)."
  },
  {
   "property": "C86",
   "status": "partial",
   "theorems": [
    "C86_safe",
    "C86_live_partial",
    "C86_panic_refuted",
    "C86_key_refuted",
    "C86_big_endian_refuted",
    "C86_sent"
   ],
   "note": "Safety for everything that can be heard (C86_safe), with liveness for key ID 0 when nothing incomplete is heard (C86_live_partial), on little endian machines. Other key IDs never open (C86_key_refuted, finding F02), incomplete protected frames make the receiver panic (C86_panic_refuted, finding F25), and big endian machines exchange the bytes of the sequence control (C86_big_endian_refuted, finding F31). The cipher is a parameter."
  },
  {
   "property": "C87",
   "status": "partial",
   "theorems": [
    "C87_sent",
    "C87_reassembled",
    "C87_finished",
    "C87_big_endian_refuted"
   ],
   "note": "All histories, on little endian machines. False on big endian machines (C87_big_endian_refuted, finding F31)."
  },
  {
   "property": "C88",
   "status": "partial",
   "theorems": [
    "C88_scan_partial",
    "C88_announce",
    "C88_big_endian_refuted",
    "C88_pmkid_refuted"
   ],
   "note": "All histories, for networks without PMKIDs and, on big endian machines, without RSN capabilities; otherwise false (C88_pmkid_refuted, C88_big_endian_refuted, findings F05 and F31)."
  },
  {
   "property": "C89",
   "status": "proved",
   "theorems": [
    "C89_agree",
    "C89_goes_on",
    "C89_served",
    "C89_lasts",
    "C89_told"
   ],
   "note": "All histories without disassociation; the frames in flight are those of C79."
  },
  {
   "property": "C90",
   "status": "partial",
   "theorems": [
    "C90_agree",
    "C90_goes_on_partial",
    "C90_made",
    "C90_lasts",
    "C90_stranger_refuted"
   ],
   "note": "All histories with the stations' own and other frames; false with frames of strangers whose peering element is longer than 24 bytes (C90_stranger_refuted, finding F19). Both ends have the same byte order, see C72 for mixed ones."
  },
  {
   "property": "C91",
   "status": "partial",
   "theorems": [
    "C91_delivered_partial",
    "C91_every_packing",
    "C91_standard_refuted"
   ],
   "note": "All histories and packings of packets that the library itself writes, unprotected; false for A-MSDUs as the standard has them (C91_standard_refuted, finding F26)."
  },
  {
   "property": "C92",
   "status": "partial",
   "theorems": [
    "C92_goes_on",
    "C92_same_security_partial",
    "C92_sent",
    "C92_unreadable_refuted"
   ],
   "note": "All adversarial histories without forged MICs and all elements in the clear, MICs of 16 bytes; the security that is read is the other side's for RSN elements that the crate can carry (C17) and wrong in general (C92_unreadable_refuted, finding F50)."
  },
  {
   "property": "C93",
   "status": "proved",
   "theorems": [
    "C93_known",
    "C93_agree",
    "C93_can_say",
    "C93_limit"
   ],
   "note": "All rate lists of 1 to 259 rates, all layouts and histories; C93_limit says that the constructors accept no longer lists."
  },
  {
   "property": "C94",
   "status": "proved",
   "theorems": [
    "C94_known",
    "C94_kinds",
    "C94_types",
    "C94_can_say"
   ],
   "note": "Generic in the element type; C94_types lists those that qualify. HT operation elements do not (finding of C16), mesh peering elements and TIMs are the subject of C90 and C84."
  },
  {
   "property": "C95",
   "status": "proved",
   "theorems": [
    "C95_quiet",
    "C95_answer",
    "C95_only",
    "C95_not_answered",
    "C95_exchange"
   ],
   "note": "All frame types. The frame check sequence of control frames is the standard's (the crate does not write it). CF-End frames, which end a reservation early, are treated like other frames."
  },
  {
   "property": "C96",
   "status": "proved",
   "theorems": [
    "C96_matches",
    "C96_dispatch",
    "C96_message",
    "C96_shared"
   ],
   "note": "All protocols; nothing is assumed about their writers and readers beyond the messages sent. A protocol's payload must not be empty if reading at the end of a buffer is refused (strict_end). A general RawVendorSpecificAction arm must come after the protocols: before them it takes their frames, as in any match (C96_shared_ex)."
  },
  {
   "property": "C97",
   "status": "proved",
   "theorems": [
    "C97_known",
    "C97_agree",
    "C97_can"
   ],
   "note": "All numbers of stations and histories. Clocks run equally fast and frames take no time in the air; beacons are those of stations that follow the rule, other frames (also beacons of other networks) are anybody's."
  },
  {
   "property": "C98",
   "status": "proved",
   "theorems": [
    "C98_once",
    "C98_all",
    "C98_can"
   ],
   "note": "All messages and histories, also on big endian machines: there sequence control is read with its bytes exchanged (finding F31), but different numbers stay different. The frame check sequence of acknowledgements is the standard's (the crate does not write it)."
  }
 ]
}