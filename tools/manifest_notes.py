status = {k: "partial" for k in ["C92", "C91", "C90", "C88", "C87", "C86", "C85", "C84", "C04", "C05", "C08", "C11", "C12", "C16", "C17", "C18", "C19", "C20", "C21", "C23", "C24", "C25", "C27", "C28", "C29", "C30", "C31", "C32", "C33", "C34", "C35", "C36", "C76", "C78", "C37", "C38", "C41", "C43", "C44", "C45", "C46", "C47", "C48", "C49", "C50", "C51", "C53", "C54", "C56", "C58", "C59", "C60", "C61", "C62", "C64", "C66", "C67", "C68", "C71", "C72", "C75", "C77", "C81", "C83"]}
notes = {
 "C01": "All byte strings and buffers. CRC-32 (crc32fast) is modelled concretely and proved to be the standard's frame check sequence, defined by division of polynomials over GF(2). Strings shorter than four bytes panic (finding F07).",
 "C02": "Any error burst of up to 32 bits, hence any change inside four consecutive bytes, at any position of a frame of any length; up to two, three, four, five changed bits anywhere in frames of less than 2^29, up to 11454, 375, 37 bytes (the last two lengths are the limits).",
 "C03": "All 65536 values; all canonical frame types.",
 "C04": "All byte strings. Strings shorter than four bytes with FCS panic (F07), four control subtypes miss their second address (F08), the sequence control field is read in native byte order (F31); everything else exactly.",
 "C28": "All control frames; the announced length of acknowledgements is wrong (finding F20). The frame control field is not part of the library's reader and writer.",
 "C44": "All frames and all pairs of types, dispatch independent of the order of the arms. with_fcs: false is taken for true (finding F21) and is_eapol_key_frame accepts all EAPOL frames.",
 "C05": "The full claim is false of the code (finding F08); proved: exactly four subtypes are wrong and the answer 'has a second address' is always right.",
 "C06": "26 enumerations against separately written standard tables (SpecCodes.v).",
 "C07": "22 structures against separately written standard positions (SpecLayouts.v).",
 "C08": "All numbers; the unchecked constructor agrees on its documented domain. IDs that are checked, made by the macro, received or reported by a TIM are valid; the default value is not (finding F46).",
 "C09": "Every byte string.",
 "C10": "All element lists. If the unavailable scroll version refuses empty reads at the end of a slice (strict_end), a final empty element is lost: stated as C10_strict_end_partial/_refuted.",
 "C11": "The full claim is false of the code (finding F09: a raw element at the end of a chain is measured two bytes short); proved exactly for all chains, plus append and macro order.",
 "C12": "Exact description for all bodies and all element types whose parser does not panic, including re-finding of written values. The claim 'never panics' is false for mesh peering elements and for direct parsing of short vendor elements (F11, F19); the exact conditions of both panics are proved.",
 "C13": "All strings and byte strings; UTF-8 is specified independently (SpecUtf8.v).",
 "C14": "All rate lists; all rates, exactly (rounded down below 64 Mbit/s). Values outside the documented domain are recorded as findings (F12).",
 "C15": "Seven element types: one to one correspondence of values and byte strings, short input refused, no panic.",
 "C16": "The full claim is false of the code (finding F17); proved: exactly what survives, and what is read from any bytes.",
 "C17": "The full claim is false of the code (findings F05, F06, F31): PMKID lists are measured and counted wrongly, capabilities are read in native byte order. Proved: exact format, exact measure, round trip for all gap-free elements on little endian targets, exact description of parsing for all byte strings, forwarding.",
 "C18": "Selectors and length tables for all selectors/suites; the compatibility check is sound but not complete and the two protection bits are not encoded as in the standard (findings F03, F04).",
 "C19": "The full claim is false of the code (finding F14: the first bit of a bitmap with an offset is skipped); proved: exactly what every received element reports.",
 "C20": "The full claim is false of the code (findings F13, F14, F15). Proved: the macros put exactly the given IDs on the air; exact description of what new_static bitmaps report, with the cases in which the claim holds.",
 "C21": "Parser and refusal completely; round trip for every element with a bitmap of any kind or none. An indicator without bitmap is read back as a bitmap of one zero byte (finding F31).",
 "C22": "All values. Under strict_end an OWE element without SSID and band cannot be read back.",
 "C23": "Construction, interpretation and round trip for all parameters; 'does not panic' is false beyond 24 bytes (finding F19).",
 "C24": "All 13 frame types, all headers whose order flag agrees with the presence of the HT control field (otherwise false: F22), all element contents; a frame without elements is unreadable if scroll refuses empty reads at the end (strict_end).",
 "C25": "Exact for nine frame types; vendor specific and mesh peering action frames announce one byte too little (finding F29), proved exactly.",
 "C26": "All byte strings, all 13 frame types; with FCS exactly the strings shorter than four bytes panic (finding F07).",
 "C27": "Any history of successful and failed additions. The FCS is written in native byte order, so frames with FCS are wrong on big endian targets (finding F31).",
 "C29": "All headers whose optional fields agree with the flags and the subtype, all payloads, both FCS settings; otherwise false (finding F22), as on big endian targets (F31). Null frames lose their payload, unknown subtypes are refused.",
 "C30": "Address roles for all four DS combinations; with an A-MSDU the mutable and the immutable BSSID accessor disagree (finding F23).",
 "C31": "All call chains the types admit. Flags, subtype and payload always; address fields and roles unless source or BSSID follow the destination in a frame from the DS (finding F24: the builder then exchanges them); the BSSID of an A-MSDU with both DS flags is not reported. C31_fields says for every chain what the fields hold.",
 "C32": "All chains for data and null data frames without order flag and with all four addresses where needed; QoS frames, the order flag and a missing fourth address give frames that no reader returns, whatever is received (C32_others_never), and that read back differently (finding F24).",
 "C36": "All keys and messages on little endian targets: the code computes the standard's Michael function (SpecMichael.v); on big endian targets the key is taken apart the wrong way round (finding F34). Also: the block function is invertible, distinct keys and distinct single words give distinct codes.",
 "C33": "Any list of subframes. The full claim is false of the code (finding F26): the length field is little endian, the last subframe is padded, the announced length of a frame holding one is short, the iterator panics on truncated subframes. What any buffer gives is proved (C33_any_buffer, C33_frame_any_buffer).",
 "C34": "All headers and packet numbers below 2^48. The key ID is shifted the wrong way on reading, so none but zero survives, and the constructor refuses arguments only if both are out of range (findings F01, F02); what is read is proved exactly for any eight bytes.",
 "C35": "All payloads and MIC lengths; reading a protected frame shorter than header and MIC panics (finding F25).",
 "C69": "All byte strings. The cases that panic are findings F07, F19, F25 and F26; the condition is exact in both directions, with complete frames as witnesses. Not covered: parse_raw_element_as (finding F11, C12), EAPOL (C43) and the raw and vendor action bodies, which hold no elements (C26).",
 "C72": "False of the code in native byte order (data frame headers, the generic view's sequence control, RSN capabilities, mesh peering elements, the FCS of dynamic frames; Michael: C36); for these the exact difference is proved for all inputs, all other functions are proved to be the same.",
 "C79": "All histories of intact and damaged copies; damage as far as the frame check sequence reveals all of it (C02). As in C61, data frames arrive with two header fields byte-swapped on big endian targets (finding F31), exactly as stated in SpecNoise.v.",
 "C80": "All sessions, labels and data; a label with a zero byte is not separated from the data that follow (C80_zero_label_refuted; the labels of the standard have none). Beyond 256 blocks the output repeats (C38_counter_refuted).",
 "C96": "All protocols; nothing is assumed about their writers and readers beyond the messages sent. A protocol's payload must not be empty if reading at the end of a buffer is refused (strict_end). A general RawVendorSpecificAction arm must come after the protocols: before them it takes their frames, as in any match (C96_shared_ex).",
 "C97": "All numbers of stations and histories. Clocks run equally fast and frames take no time in the air; beacons are those of stations that follow the rule, other frames (also beacons of other networks) are anybody's.",
 "C98": "All messages and histories, also on big endian machines: there sequence control is read with its bytes exchanged (finding F31), but different numbers stay different. The frame check sequence of acknowledgements is the standard's (the crate does not write it).",
 "C95": "All frame types. The frame check sequence of control frames is the standard's (the crate does not write it). CF-End frames, which end a reservation early, are treated like other frames.",
 "C94": "Generic in the element type; C94_types lists those that qualify. HT operation elements do not (finding of C16), mesh peering elements and TIMs are the subject of C90 and C84.",
 "C93": "All rate lists of 1 to 259 rates, all layouts and histories; C93_limit says that the constructors accept no longer lists.",
 "C92": "All adversarial histories without forged MICs and all elements in the clear, MICs of 16 bytes; the security that is read is the other side's for RSN elements that the crate can carry (C17) and wrong in general (C92_unreadable_refuted, finding F50).",
 "C91": "All histories and packings of packets that the library itself writes, unprotected; false for A-MSDUs as the standard has them (C91_standard_refuted, finding F26).",
 "C90": "All histories with the stations' own and other frames; false with frames of strangers whose peering element is longer than 24 bytes (C90_stranger_refuted, finding F19). Both ends have the same byte order, see C72 for mixed ones.",
 "C89": "All histories without disassociation; the frames in flight are those of C79.",
 "C88": "All histories, for networks without PMKIDs and, on big endian machines, without RSN capabilities; otherwise false (C88_pmkid_refuted, C88_big_endian_refuted, findings F05 and F31).",
 "C87": "All histories, on little endian machines. False on big endian machines (C87_big_endian_refuted, finding F31).",
 "C86": "Safety for everything that can be heard (C86_safe), with liveness for key ID 0 when nothing incomplete is heard (C86_live_partial), on little endian machines. Other key IDs never open (C86_key_refuted, finding F02), incomplete protected frames make the receiver panic (C86_panic_refuted, finding F25), and big endian machines exchange the bytes of the sequence control (C86_big_endian_refuted, finding F31). The cipher is a parameter.",
 "C85": "All histories of arrivals, for the numbers as the receiver reads them (C85_once) and for the standard's counters on little endian machines (C85_counter). False on big endian machines for a transmitter of data and management frames (finding F31).",
 "C84": "All histories, stations and beacons for bitmaps handed over whole (new_raw). False for tim_bitmap! if the lowest ID is a multiple of 16 (finding F14; exactly then, C84_macro_partial) and for new_static (finding F13).",
 "C83": "Any body type, any bytes and buffers. The claim is false only of numbers in data frames received on big endian machines (finding F31).",
 "C82": "All byte strings; A-MSDUs and TIM elements on which the iteration panics (C33, C19) yield nothing.",
 "C81": "All keys, key data and buffers (any buffer if scroll accepts empty writes at the end of a buffer, else buffers with room for the plain frames); for every sent frame and every other key data of the same padded length a key wrap is given that makes the same frame. The last part is false of the code: a frame that announces no MIC is decrypted and answered (findings F48, F49). Timing is not modelled.",
 "C78": "All histories. The reduction is exact: what was never sent is taken only if a byte string that is heard carries a correct MIC of it (is_forged, SpecReplay.v). The unconditional claim is false of the code: a short frame of anybody makes the receiver panic (finding F27), and a KCK given by the caller does not make the library insist on a MIC (finding F48).",
 "C77": "Any number of hops, each machine with its own byte order and build; all headers and payloads, all accepted frames. Addresses, payload, flags, QoS and HT control always; duration and sequence control exactly (they are twisted by every big endian machine, finding F31). Rebuilding with the builder: frames without A-MSDU; the documented order of calls exchanges source and BSSID for every frame (finding F24).",
 "C76": "All 22 element types, all bodies. False of the code for HT operation (finding F17: exactly what is written and when it survives) and RSN elements with PMKIDs (finding F05: exactly by how much the announced length is short). C76_rsn_exact and C76_owe_exact say what is written and read again on every target and scroll version: big endian targets exchange the two bytes of the RSN capabilities, and scroll versions that refuse empty reads at the end lose an empty list or refuse an empty SSID there.",
 "C75": "All byte strings and continuations, all writers and buffers. False of the code for the generic view, key frames with too small an announced length and over-long SSIDs (finding F47). With FCS nothing is claimed: the checksum is in the last bytes, whichever these are.",
 "C74": "All writers of the library as programs of stores (C74_elements to C74_ctrl), any buffer. For a checksum over padding bytes that were left alone (A-MSDU with FCS) the value of its bytes is not stated. A field filled in afterwards may still be missing while what follows is there (C74_ex).",
 "C73": "All modelled functions; what the release build does where the debug build panics is in C08, C14, C19, C43, C46.",
 "C71": "All outcomes; if the plain frame does not fit, the buffer has bytes of it or what was there (C71_short). The last part is false of the code: whenever key data cannot be encrypted for want of a key or of room, the plain frame is left in the caller's buffer (finding F45).",
 "C70": "All byte strings. With scroll versions that refuse empty reads at the end, an empty last element is not seen, so inserting something behind it makes it visible (C70_strict_end_refuted); otherwise without restriction.",
 "C68": "All values and buffers. The full claim is false of the code: A-MSDU padding is what was in the buffer (finding F44), a wrapped payload with a MIC, one TIM bitmap made by a macro and unknown data subtypes with overflow checks panic; proved for everything else, with exact conditions for TIM and mesh peering elements, data frames and payloads with a MIC.",
 "C45": "All byte strings. The full claim is false of the code: a failed check moves the offset (finding F43); the exact offset after every outcome is proved.",
 "C49": "All accepted byte strings of protocol version 0; association IDs (association response, mesh confirm) must have their two top bits set, otherwise they are changed.",
 "C46": "Queries and iteration for all maps; construction only up to four streams: the full claim is false of the code (finding F16); what becomes of longer lists is proved exactly for both kinds of build.",
 "C48": "All builder sequences with the exact content of every field; all predefined elements except OWE, for which the claim is false (finding F06); the element for WPA2 and WPA3 stations requires management frame protection (finding F39).",
 "C47": "Receive mask construction and iteration; index 76 is dropped by the function form and the transmit flag predicates are wrong (finding F18).",
 "C37": "All key frames, any key data. Frames of 64 KiB and more are written with truncated length fields (finding F27); empty key data is unreadable if scroll refuses empty reads at the end (strict_end). C37_read_exact: exactly which byte strings are accepted, and as what.",
 "C38": "Any HMAC with 20 bytes of output, any key, label, data and length up to 256 blocks; beyond, the one byte counter wraps and the output repeats (finding F28).",
 "C39": "Any HMAC, keys, addresses, nonces and lengths; with the standard's formula for up to 256 blocks.",
 "C40": "All PTKs and suites, both directions. The code returns None instead of panicking.",
 "C41": "Any HMAC and any invertible key wrap (SHA-1 and AES key wrap are proved to be such). The full claim is false of the code (finding F27): a non-zero MIC field, empty encrypted key data, 24 byte MICs and short temporary buffers. All outcomes, errors and panics included, are proved, for buffers with room for the plain frame and for shorter ones; and what any receiver, with any keys, makes of a sent frame.",
 "C42": "All byte strings and keys. A frame that does not announce a MIC is not checked, nor is the FCS (stated as theorems). C42_outcome gives the result for every byte string: the returned frame, the error or the panic.",
 "C43": "The full claim is false of the code (finding F27); proved: exactly which byte strings panic, with one witness for each of the five cases.",
 "C50": "All item types, byte strings and numbers of calls; the reported length is the number of items only if every item is one byte long (finding F10).",
 "C51": "All accepted byte strings of protocol version 0 on little endian targets; the version bits and bytes behind a null frame are dropped (finding F30).",
 "C56": "Any block cipher; AES is proved to be one. Length and error exactly; the result is RFC 5649 padded wrapping, which the receiver's RFC 3394 unwrapping never accepts (finding F35).",
 "C57": "Any HMAC with 20 bytes of output, all passphrases, SSIDs and output lengths. PBKDF2 (pbkdf2 crate) is modelled as in RFC 8018; vectors of RFC 6070 are checked beside the model.",
 "C52": "All element sequences and byte strings. If scroll refuses empty reads at the end of data (strict_end), an empty SSID is not seen.",
 "C53": "All received beacons, windows and durations below 65536 time units; longer ones are truncated (finding F28).",
 "C54": "All TIM, rates and RSN elements in all representations; equal TIM elements can announce different lengths (finding F13), and received RSN elements with different PMKIDs are equal (finding F05).",
 "C55": "All 32 bit values and all lengths.",
 "C58": "Exact sizes for all accepted byte strings. The full claim is false of the code (finding F36): payloads of data and action frames and the FCS are not counted; missing A-MSDU padding is.",
 "C59": "All received elements and all made by new_static and tim_bitmap!; hand-made StaticBitmap values that differ behind the used part violate the law (finding F37).",
 "C60": "All accepted byte strings of all typed readers. The full claim is false of the code: byte order of sequence control and duration on big endian targets (finding F31), transmitter of RTS frames (finding F08).",
 "C61": "All values, arms, buffers and element chains; on big endian targets data frames arrive with duration and sequence control byte-swapped (finding F31), exactly. Frames without elements need a scroll that accepts empty reads at the end (strict_end = false).",
 "C62": "Any HMAC and key wrap, all values. The full claim is false of the code: the MIC field of the caller must be zero and MICs have 16 bytes (finding F27); the padding is not removed and reads as an SSID (finding F38).",
 "C63": "Both directions for all byte strings; what the reading library does at the end of data is a parameter (strict_end).",
 "C64": "All byte strings accepted by each management reader and, on little endian targets, by the data frame reader; on big endian targets the claim is false of data frames (finding F31), the exact difference is proved.",
 "C65": "All pairs of admissible values, for both kinds of reading library and endianness.",
 "C67": "All frames, keys and AKM suites. The full claim is false of the code: an accepted encrypted frame is refused the second time (never accepted with the same KCK unless the MIC collides), and a malformed key frame is refused only after decryption (finding F42). The buffer after a panic is modelled but nothing is claimed about it beyond its length.",
 "C66": "Plain format of the hand-written implementations, all values. The full claim is false of the code: defmt prints a stray empty list (finding F40) and PMKIDs lose leading zeros (finding F41).",
}
