#!/usr/bin/env python3
"""Generates /verif/properties.jsonl (kept as a script so that the text is easy to edit)."""
import json, os
P = []
def p(title, statement, quantifier, why, anchors):
    P.append(dict(id="C%02d" % (len(P) + 1), title=title, statement=statement,
                  quantifier=quantifier, why_tests_cant=why, anchors=anchors))

p("FCS attach/validate agree",
  "Serialising a frame with FCS enabled appends exactly the little-endian CRC-32 of everything written before it, and reading with FCS enabled accepts a byte string of at least four bytes exactly when its last four bytes are the little-endian CRC-32 of the bytes before, in which case the parser sees the string without those four bytes.",
  "every frame content of every length, every output buffer large enough",
  "frames are unbounded byte strings; a test fixes a handful",
  ["src/common/mod.rs: strip_and_validate_fcs, attach_fcs", "src/frames/mod.rs: GenericFrame::new"])
p("FCS detects every short corruption and every few scattered bit errors",
  "If a received frame differs from a transmitted frame (with valid FCS) only within a window of at most four consecutive bytes (anywhere: in the body, across the body/FCS boundary or inside the FCS), reading it with FCS enabled fails. The same holds if it differs in at most two bits anywhere (frames below 2^29 bytes), three bits anywhere (up to 11454 bytes, the longest 802.11 frame), four bits anywhere (up to 375 bytes) or five bits anywhere (up to 37 bytes).",
  "every frame, every position, every change inside a 32 bit window, every choice of up to two, three, four or five changed bits",
  "the number of (frame, corruption) pairs is unbounded",
  ["src/common/mod.rs: strip_and_validate_fcs", "src/common/mod.rs: strip_and_validate_fcs, attach_fcs (crc32fast::hash)"])
p("Frame control field layout",
  "Parsing a frame control field and turning it back into 16 bits is the identity on all 65536 values, the parsed version, type, subtype and the eight flags are the bits IEEE 802.11 assigns to them, and every frame-type value in canonical form survives the opposite trip.",
  "all 65536 frame control values; all frame types and flag combinations",
  "unit tests sample a few values, the claim is about all",
  ["src/common/mod.rs: FrameType, FCFFlags, FrameControlField", "src/common/subtypes/*.rs"])
p("GenericFrame accessors are total and read the right bytes",
  "GenericFrame::new accepts a byte string exactly when (after optional FCS removal) it has at least ten bytes; on every accepted frame none of the accessors panics, and each returns the field at its IEEE 802.11 offset, the optional ones being present exactly when the frame type has that field and the frame is long enough.",
  "every byte string, with and without FCS",
  "safety on attacker controlled input needs all byte strings",
  ["src/frames/mod.rs: GenericFrame"])
p("Second address presence per control subtype",
  "address_2 is offered for exactly those control frames which carry a transmitter address in IEEE 802.11 (RTS, PS-Poll, CF-End, CF-End+CF-Ack, BlockAckReq, BlockAck, ...).",
  "all control subtypes",
  "refuted by the faithful model; a test of the listed subtypes cannot show completeness",
  ["src/common/subtypes/control.rs: has_address_2", "src/common/mod.rs: FrameType::has_address_2"])
p("Code point enumerations are lossless",
  "For every enumeration that stands for a numeric code on the air (reason codes, status codes, authentication algorithms, category codes, frame subtypes, mesh identifiers, ...), converting any number to the enumeration and back gives the number, named variants convert to the number of the standard and back, and distinct canonical values have distinct numbers.",
  "all numbers of the field width and all variants",
  "the tables have hundreds of entries and a catch-all",
  ["src/common/reason.rs", "src/common/status_code.rs", "src/common/auth_algo_num.rs", "src/common/subtypes/*.rs", "src/frames/mgmt_frame/body/action/*.rs"])
p("Bit field structures: setters and getters are independent and lossless",
  "For every bit field structure of the crate, writing a field makes exactly that field read back as written, leaves every other field unchanged, and the fields do not overlap; reading a raw word and writing it back preserves every bit.",
  "all field values and all initial words of all bit field structures",
  "2^16..2^64 words per structure",
  ["src/common/capabilities.rs", "src/common/sig.rs", "src/common/mod.rs: SequenceControl", "src/elements/ht/*.rs", "src/elements/vht.rs", "src/elements/rsn.rs: RsnCapabilities", "src/elements/mesh/*.rs", "src/crypto/eapol.rs: KeyInformation"])
p("Association IDs",
  "AssociationID::new_checked accepts a number exactly when, with the two top bits removed, it lies in 1..=2007; aid() returns that number, the encoded form has both top bits set, and encoding then checking again gives the same ID; every association ID a user can get hold of (constructors, macro, received frames, TIM iteration, default values) lies in 1..=2007.",
  "all 65536 inputs",
  "tests check three boundary values",
  ["src/common/aid.rs"])
p("Element iteration is safe on arbitrary bytes",
  "Iterating the elements of a body terminates, never panics, yields only elements that lie inside the body, in order and without gaps: the encodings of the yielded elements are a prefix of the body and iteration stops only where no complete element is left.",
  "every byte string",
  "attacker controlled, unbounded input",
  ["src/common/read_iterator.rs", "src/elements/mod.rs: ReadElements::raw_element_iterator"])
p("Element sequence round trip",
  "Serialising any sequence of elements (each body at most 255 bytes including extended ID or vendor prefix) and iterating the result yields exactly these elements: same identifiers, same bodies, same order, nothing else.",
  "all element lists of any length and any payloads up to the format limit",
  "unbounded lists",
  ["src/elements/element_chain.rs", "src/elements/mod.rs: WrappedIEEE80211Element, ReadElements"])
p("Element chains: announced size equals written size",
  "The length an element chain announces (measure) is the number of bytes it writes, appending puts the element last, and the chain writes nothing beyond that length.",
  "all chains, typed and raw elements, all buffers",
  "refuted for chains ending in a raw element; holds for all other chains of any length",
  ["src/elements/element_chain.rs: ElementChainEnd, ElementChainLink"])
p("Element lookup finds exactly the matching elements",
  "get_matching_elements returns exactly the parsed elements of the requested type in order of appearance, get_first_element the first of them; an element matches iff its ID (and extended ID or vendor prefix) equals the requested one, so asking for one type never returns another; lookup never panics.",
  "every body, every element type, every identifier",
  "unbounded bodies and payloads",
  ["src/elements/mod.rs: element_id_matches, parse_raw_element, get_matching_elements, get_first_element"])
p("SSID and mesh ID elements",
  "An SSID element holds at most 32 bytes of valid UTF-8 however it is obtained through the checked constructors or the parser, written and read back it is unchanged, and the parser accepts a body exactly if it is at most 32 bytes of valid UTF-8.",
  "all strings and all byte strings",
  "unbounded set of strings",
  ["src/elements/ssid.rs"])
p("Rates elements",
  "Supported rates and extended supported rates: every accepted list of rates is written one byte per rate and read back in order; new accepts exactly up to the documented number of rates; converting kbps to an encoded rate and back is the identity for representable rates.",
  "all rate lists and all rates",
  "unbounded lists; refuted outside of the representable range",
  ["src/elements/rates/*.rs"])
p("Fixed layout elements round trip",
  "DSSS parameter set, IBSS parameter set, BSS load, HT capabilities, VHT capabilities, VHT operation and mesh configuration elements: writing any value and reading it back gives the same value, the announced length is the written length, and reading any sufficiently long byte string and writing it back gives the same bytes (up to documented reserved bits).",
  "all values and all byte strings",
  "up to 2^208 values per element",
  ["src/elements/dsss_parameter_set.rs", "src/elements/ibss_parameter_set.rs", "src/elements/bss_load.rs", "src/elements/ht/capabilities.rs", "src/elements/ht/mcs_set.rs", "src/elements/vht.rs", "src/elements/mesh/mesh_configuration.rs"])
p("HT operation element round trip",
  "Writing an HT operation element and reading it back gives the same element.",
  "all HT operation values",
  "refuted: the faithful model exhibits a value which does not survive",
  ["src/elements/ht/operation.rs"])
p("RSN element round trip",
  "Reading back a written RSN element gives an equal element, announced length equals written length, and parsing stops exactly at the first missing optional field.",
  "all RSN elements: any version-1 element, any lists of suites and PMKIDs",
  "unbounded lists; refuted for PMKID lists and for elements with a gap in the optional fields",
  ["src/elements/rsn.rs"])
p("RSN selector tables and management frame protection compatibility",
  "Cipher and AKM selectors map to the suites of IEEE 802.11 and back without loss, key, MIC and KEK lengths are those of the standard's tables, and two stations' management frame protection settings are judged compatible exactly when neither requires what the other cannot do.",
  "all selectors and all pairs of settings",
  "refuted for the compatibility relation and for the conversion of the setting to bits",
  ["src/elements/rsn.rs: IEEE80211CipherSuiteSelector, IEEE80211AKMType, OptionalFeatureConfig"])
p("TIM: decoded AIDs are exactly the set bits",
  "For every received TIM bitmap, iterating the AIDs yields exactly the association IDs whose bit is set in the (partial virtual) bitmap, in ascending order.",
  "every bitmap control value and every bitmap",
  "refuted: bit 0 of a bitmap with non-zero offset is skipped",
  ["src/elements/tim.rs: TIMBitmap::aid_iter"])
p("TIM: constructed bitmap encodes the given AIDs",
  "A TIM bitmap created from a list of AIDs, serialised and parsed by the crate, indicates traffic for exactly those AIDs, and group traffic exactly if requested.",
  "all lists of AIDs",
  "refuted for lists whose smallest AID is 16 or more, for group traffic and for the announced length",
  ["src/elements/tim.rs: TIMBitmap::new_static, tim_bitmap!"])
p("TIM element: DTIM rule",
  "A TIM element with a DTIM count larger than its DTIM period is neither parsed nor written, any other element with at least the two fixed bytes is accepted, and reading what was written returns it.",
  "all counts, periods, bitmaps",
  "2^16 pairs times unbounded bitmaps",
  ["src/elements/tim.rs: TIMElement"])
p("OWE transition mode and key data encapsulations round trip",
  "OWE transition mode elements and the key data encapsulations (MAC address, PMKID, nonce, lifetime, GTK) survive writing and reading with announced length equal to written length.",
  "all field values, all SSIDs up to 255 bytes, all key lengths",
  "unbounded payloads; refuted beyond the one byte length",
  ["src/elements/owe_transition.rs", "src/elements/kde.rs"])
p("Mesh peering management element",
  "Building an open, confirm or close variant and interpreting it as the same variant gives back the parameters, it cannot be interpreted as an incompatible variant, and parsing arbitrary bytes does not panic.",
  "all parameters, all byte strings",
  "refuted: more than 20 trailing bytes make the parser panic",
  ["src/elements/mesh/mesh_peering_management.rs"])
p("Management frames round trip",
  "Writing a management frame of any supported subtype (beacon, probe request/response, association request/response, authentication, deauthentication, disassociation, action and mesh peering) and reading it back as the same type gives the same header, body fields and element bytes, with and without FCS.",
  "all header and body values, all element bytes, all buffers",
  "unbounded element sections and about 2^200 headers",
  ["src/frames/mgmt_frame/mod.rs", "src/frames/mgmt_frame/header.rs", "src/frames/mgmt_frame/body/*.rs"])
p("Management frames: announced size equals written size",
  "length_in_bytes/measure of a management frame is the number of bytes its serialisation writes.",
  "all management frames",
  "refuted for vendor specific and mesh peering action frames; holds for all others",
  ["src/frames/mgmt_frame/mod.rs", "src/frames/mgmt_frame/body/**"])
p("Reading a management frame never panics",
  "Parsing an arbitrary byte string as any management frame without FCS returns a value or an error and never panics; with FCS the same holds for byte strings of at least four bytes; shorter ones panic.",
  "every byte string",
  "attacker controlled, unbounded input; refuted below four bytes",
  ["src/frames/mgmt_frame/mod.rs", "src/common/mod.rs: strip_and_validate_fcs"])
p("Dynamic management frames",
  "Whatever sequence of elements is added to a DynamicManagementFrame, the finished buffer holds the fixed part followed by the elements in insertion order (and a valid FCS if requested), the returned length is exactly that, it equals the frame written with an element chain of the same elements, and a failed add leaves the earlier content in place.",
  "all histories of add_element calls, all buffers",
  "histories are unbounded",
  ["src/frames/mgmt_frame/mod.rs: DynamicManagementFrame"])
p("Control frames",
  "RTS, CTS and Ack frames survive writing and reading, and the announced length is the written length.",
  "all control frames",
  "refuted for Ack",
  ["src/frames/control_frame/mod.rs"])
p("Data frames round trip",
  "A data frame whose optional header fields are consistent with its flags and subtype survives writing and reading with and without FCS: same subtype, flags, addresses, sequence control, QoS, HT control and payload; the announced length is the written length.",
  "all consistent headers, all payloads",
  "unbounded payloads",
  ["src/frames/data_frame/mod.rs", "src/frames/data_frame/header.rs"])
p("Data frame address roles",
  "For each of the four ToDS/FromDS combinations, with and without A-MSDU, the receiver, transmitter, destination, source and BSSID accessors return the address fields which IEEE 802.11 (Table 9-30) assigns to these roles, and the mutable accessors refer to the same fields.",
  "all headers",
  "refuted for the mutable BSSID accessor with A-MSDU",
  ["src/frames/data_frame/header.rs"])
p("Data frame builder places addresses by role",
  "A data frame built with the typed builder reports, through its role accessors, exactly the addresses supplied for these roles, whatever the order of the builder calls the type system admits, and its flags and subtype are the ones selected.",
  "all addresses, all builder call sequences admitted by the types",
  "refuted for from_ds when the destination is given first; holds for the other sequences",
  ["src/frames/data_frame/builder.rs", "src/common/type_state.rs"])
p("QoS frames from the builder are self-consistent",
  "A data frame produced by the builder can be written and read back.",
  "all builder results",
  "refuted for QoS categories, which lack the QoS control field",
  ["src/frames/data_frame/builder.rs"])
p("A-MSDU round trip",
  "An A-MSDU payload with any list of subframes, written and iterated, yields the same subframes in order; the announced length is the written length; iterating arbitrary bytes never panics.",
  "all subframe lists, all byte strings",
  "unbounded lists; refuted for subframe lengths that are not a multiple of four",
  ["src/frames/data_frame/amsdu.rs"])
p("CCMP/GCMP header round trip",
  "A crypto header built from a packet number below 2^48 and a key ID below 4 survives writing and reading; out of range arguments are rejected.",
  "all packet numbers and key IDs",
  "2^50 values; refuted: the key ID is lost and out of range values are accepted",
  ["src/crypto/crypto_header.rs: CryptoHeader"])
p("Crypto wrapped payloads",
  "Wrapping a payload reserves exactly header and MIC around it and unwrapping returns the same payload; unwrapping arbitrary received bytes never panics.",
  "all payloads, MIC lengths and byte strings",
  "refuted for short input",
  ["src/frames/data_frame/mod.rs: potentially_wrapped_payload, crypto_wrap", "src/crypto/crypto_header.rs: CryptoWrapper"])
p("Michael MIC",
  "michael computes the Michael function of IEEE 802.11 clause 12.5.2.3.3 over the padded message for messages of any length, the block function is invertible, and two different messages of equal length with one differing block, or two different keys, are never mapped to the same MIC by construction of the block function.",
  "all keys and messages",
  "test vectors only sample",
  ["src/crypto/michael.rs"])
p("EAPOL key frame round trip",
  "Writing an EAPOL key frame and reading it with the same MIC length gives the same frame; the announced length is the written length; the length fields are those of the written data; the ranges of MIC and key data point at exactly those bytes.",
  "all EAPOL key frames, MIC lengths and key data",
  "unbounded key data",
  ["src/crypto/eapol.rs"])
p("PRF structure",
  "For any HMAC, the PRF fills the output with the concatenation of HMAC blocks with counters 0,1,2,..., truncated to the requested length; a shorter output is a prefix of a longer one; its input encodes label, zero byte, data and counter.",
  "all keys, labels, contexts and output lengths",
  "unbounded lengths; the one byte counter wraps after 256 blocks",
  ["src/crypto/key_mgmt.rs: prf, prf_iter"])
p("PTK derivation is symmetric",
  "Both peers derive the same pairwise transient key whichever of them is given as first or second party: swapping addresses together with nonces does not change the result.",
  "all keys, addresses, nonces",
  "2^700 inputs",
  ["src/crypto/key_mgmt.rs: derive_ptk, sort_lexicographically"])
p("PTK partitioning",
  "Partitioning a PTK gives consecutive, non overlapping slices KCK, KEK, TK of the lengths of the negotiated suites whose concatenation is a prefix of the PTK, and is refused exactly if the PTK is too short or lengths are unknown.",
  "all PTKs and suite combinations",
  "all PTK lengths",
  ["src/crypto/key_mgmt.rs: partition_ptk"])
p("EAPOL serialisation and deserialisation agree",
  "A frame produced by serialize_eapol_data_frame for a key set is accepted by deserialize_eapol_data_frame with the same keys and yields the same EAPOL key fields and key data.",
  "all keys, frames, key data",
  "unbounded payloads; refuted when the caller leaves a non-zero MIC in the frame",
  ["src/crypto/key_mgmt.rs: serialize_eapol_data_frame, deserialize_eapol_data_frame"])
p("Accepted EAPOL frames are authenticated",
  "If deserialize_eapol_data_frame returns a frame whose key information announces a MIC, then the MIC contained in it equals the HMAC of the EAPOL frame with zeroed MIC under the given KCK; a second frame accepted with the same MIC has the same content unless it exhibits two inputs with the same (truncated) HMAC.",
  "all byte strings and keys",
  "security property over all attacker inputs",
  ["src/crypto/key_mgmt.rs: deserialize_eapol_data_frame"])
p("EAPOL deserialisation is robust",
  "deserialize_eapol_data_frame never panics on received bytes.",
  "all byte strings",
  "refuted: several short or malformed inputs panic",
  ["src/crypto/key_mgmt.rs: deserialize_eapol_data_frame"])
p("Frame matching dispatches to the right type",
  "GenericFrame::matches for a type is true exactly when the frame has the type's frame type/subtype (and for action frames its category and action), so at most one of several management types matches a frame, and parsing a matching frame as that type sees the same subtype.",
  "every frame, every pair of frame types",
  "all byte strings",
  ["src/frames/mod.rs: GenericFrame::matches, match_frames!", "src/frames/mgmt_frame/body/action/*.rs: matches"])
p("Action frame bodies",
  "Vendor specific and self-protected action bodies are parsed only if category (and action) agree, matching agrees with parsing, and stripping an appended vendor header succeeds exactly for the same OUI, leaving the payload; a failed check leaves the offset where it was, so that another OUI can be tried.",
  "all bodies, OUIs, byte strings",
  "unbounded payloads",
  ["src/frames/mgmt_frame/body/action/mod.rs", "src/frames/mgmt_frame/body/action/vendor.rs", "src/frames/mgmt_frame/body/action/self_protected.rs"])
p("VHT MCS map",
  "Building a VHT MCS map from a list of per-stream support values and querying it per stream, or iterating it, gives back the values; streams beyond the list are reported as unsupported.",
  "all lists up to eight entries, all maps",
  "refuted from the fifth stream on",
  ["src/elements/vht.rs: VHTMCSMap"])
p("HT supported MCS set",
  "The receive MCS bitmask contains exactly the MCS indexes given on construction, and the transmit flags are interpreted as in IEEE 802.11 Table 9-187.",
  "all index lists, all flag values",
  "refuted for index 76 and for the flag predicates",
  ["src/elements/ht/mcs_set.rs"])
p("RSN builder and predefined elements",
  "An RSN element made by any sequence of builder calls contains every value given last to each call and no gaps (a field never present without all fields before it), so nothing the caller set is dropped when writing; the predefined elements (WPA to WPA3, OWE) are complete, too, announce the length they write, offer the cipher and AKM suites their names stand for, and those for two kinds of stations shut out neither.",
  "all sequences of builder calls with all arguments; the predefined constants",
  "the order and number of builder calls is unbounded",
  ["src/elements/rsn.rs: RsnElement::new, with_*, WPA_PERSONAL .. OWE, MeasureWith, TryIntoCtx"])
p("Received management frames are written again unchanged",
  "Reading a received management frame of any supported type and writing what was read gives the received bytes again, with and without FCS, so a relay that parses and re-serialises frames does not alter them.",
  "all byte strings accepted by the reader of each of the 13 frame types",
  "every bit of every header and body field; the reserved bits and non-canonical codes cannot be enumerated; refuted for the two top bits of association IDs and for the protocol version",
  ["src/frames/mgmt_frame/mod.rs", "src/frames/mgmt_frame/header.rs", "src/frames/mgmt_frame/body/*.rs"])
p("Iterators over received data",
  "An iterator over received data (elements, cipher suites, rates, A-MSDU subframes) yields the items in order and, once it has returned None, only None; at every point a copy of it yields exactly the remaining items, is written as exactly the bytes not read yet and measures their number; the length it reports is the number of items still to come.",
  "all item types, all byte strings, any number of calls",
  "any number of calls of next; the last part is refuted: the reported length is in bytes",
  ["src/common/read_iterator.rs: ReadIterator", "src/frames/data_frame/amsdu.rs: AMSDUSubframeIterator", "src/frames/data_frame/mod.rs: DataFrameReadPayload"])
p("Received data frames are written again unchanged",
  "Reading a received data frame and writing what was read, with the payload as bytes or as returned by the payload accessor, gives the received bytes again, with and without FCS, and length_in_bytes of the frame that was read is the number of received bytes without the FCS.",
  "all byte strings accepted by the reader",
  "every header with and without each optional field, every payload; refuted for the protocol version bits and for bytes behind a null frame",
  ["src/frames/data_frame/mod.rs", "src/frames/data_frame/header.rs"])
p("SSID of received beacons and probe requests",
  "The SSID accessor of a beacon, probe response or probe request returns the content of the first SSID element that can be interpreted (at most 32 bytes of UTF-8), whatever elements precede it, and None exactly if there is none; for a frame built with an SSID it returns that SSID; the SSID counts as hidden exactly if it is empty.",
  "all element sequences of received frames, all SSIDs",
  "any number and order of elements around the SSID",
  ["src/frames/mgmt_frame/body/beacon.rs: ssid", "src/frames/mgmt_frame/body/probe.rs: ssid", "src/elements/ssid.rs: SSIDElement, ssid!", "src/common/aid.rs: aid!"])
p("Times and intervals",
  "The timestamp and the beacon interval of a received beacon as durations are the received counter in microseconds and the received number of time units of 1024 microseconds; converting an ATIM window to a duration and back gives the same element, and any duration gives the largest number of time units not longer than it.",
  "all received beacons, all 16 bit windows, all durations",
  "2^64 timestamps; the last part is refuted for durations of 65536 time units and more, which are truncated",
  ["src/frames/mgmt_frame/body/beacon.rs: timestamp_as_duration, beacon_interval_as_duration", "src/elements/ibss_parameter_set.rs: IBSSParameterSetElement"])
p("Equality of elements in different representations",
  "Comparing elements that hold the same list in different representations (array, iterator over received bytes) is an equivalence relation, is true exactly if both have the same content, and equal elements are written as the same bytes.",
  "all TIM, supported rates and RSN elements in all representations",
  "lists of any length, all representations",
  ["src/elements/tim.rs: PartialEq", "src/elements/rates/supported_rates.rs: PartialEq", "src/elements/rates/extended_supported_rates.rs: PartialEq", "src/elements/rsn.rs: PartialEq"])
p("VHT maximum MPDU length",
  "The maximum MPDU length of a VHT capabilities field is 3895, 7991 or 11454 as encoded in its two lowest bits; setting a length changes only these bits and is read back; setting a length the standard does not have makes the field report no length.",
  "all 32 bit capability values, all lengths",
  "2^32 values",
  ["src/elements/vht.rs: maximum_mpdu_length_in_bytes"])
p("Stand-alone key data wrapping",
  "The stand-alone wrapping function fills exactly the output it is given, reports a wrong output length as an error, and the receiver of a key frame carrying the result obtains the data.",
  "all keys, data and output lengths, any block cipher",
  "all keys and data; the last part is refuted: the receiver's unwrapping never accepts the result",
  ["src/crypto/key_mgmt.rs: wrap_eapol_key_data", "src/crypto/key_mgmt.rs: deserialize_eapol_data_frame"])
p("Passphrase to PSK",
  "The key made from a passphrase and an SSID is PBKDF2-HMAC-SHA1 with 4096 iterations over them (IEEE 802.11, J.4), of the length asked for, shorter keys being prefixes of longer ones.",
  "all passphrases, SSIDs and lengths, any HMAC with 20 bytes of output",
  "all passphrases and SSIDs; tests check a few published vectors",
  ["src/crypto/key_mgmt.rs: map_passphrase_to_psk"])
p("Reading reports the number of bytes used",
  "The size reported along with a value that was read (and added to the caller's offset by gread) is the number of bytes of the input that belong to the value.",
  "all accepted byte strings of every frame type",
  "every frame layout with and without each optional part; refuted for data frames and action frames (the payload is not counted), for the FCS, and for A-MSDU subframes whose padding is missing",
  ["src/frames/mgmt_frame/mod.rs", "src/frames/mgmt_frame/body/*.rs", "src/frames/data_frame/mod.rs", "src/frames/data_frame/amsdu.rs", "src/frames/control_frame/mod.rs", "src/crypto/crypto_header.rs", "src/crypto/eapol.rs"])
p("Hashing agrees with equality",
  "TIM elements of one type that compare as equal pass the same data to a hasher, so they can be used as keys of hash maps; different ones pass different data.",
  "all pairs of TIM elements",
  "all bitmaps of up to 251 bytes; refuted for hand-made static bitmaps, holds for received ones and for those made by the constructors",
  ["src/elements/tim.rs: StaticBitmap, ConstBitmap, TIMBitmap, TIMElement (derived Hash, manual PartialEq), new_static, tim_bitmap!"])
p("The generic view and the typed view of a frame agree",
  "Whatever a frame type's reader accepts, the generic frame accepts too, and its frame control flags, frame type, duration, addresses and sequence control are those of the header or body the typed reader returned.",
  "all byte strings accepted by the reader of each management frame type, of data frames and of control frames",
  "two independently written parsers on every byte string; refuted for big endian targets (sequence control, duration) and for the transmitter of RTS frames",
  ["src/frames/mod.rs: GenericFrame", "src/frames/mgmt_frame/mod.rs", "src/frames/data_frame/mod.rs", "src/frames/control_frame/mod.rs"])
p("A written frame reaches the receiver's block",
  "A frame of any supported type, written into any large enough buffer with or without FCS and dispatched with match_frames! over arms for different types in any order, runs the block of its own type with the header and content the sender had; looking up element types in a received beacon gives the values of the sender's element chain.",
  "all admissible headers and bodies of 12 management frame types and data frames, all sets and orders of arms, all element chains, all buffers",
  "composition of writing, FCS, generic parsing, dispatch, typed parsing and element lookup over all values",
  ["src/frames/mod.rs: match_frames!, GenericFrame", "src/frames/mgmt_frame/mod.rs", "src/frames/data_frame/mod.rs", "src/elements/element_chain.rs", "src/elements/mod.rs: ReadElements"])
p("The four-way handshake as a whole",
  "Authenticator and supplicant that share a PMK and know both addresses and nonces derive the same KCK, KEK and TK; every key frame serialised with the keys of one and deserialised with the keys of the other arrives with the same fields, and looking up KDEs or elements in the received key data gives exactly the values of the sender's element chain, whether the key data was encrypted or not.",
  "all PMKs, addresses, nonces, AKM and cipher suites, key frames and element chains; any HMAC with 20 bytes of output and any invertible key wrap",
  "composition of key derivation, partitioning, padding, wrapping, MIC, parsing and lookup over all values; refuted for lookups the padding satisfies (an SSID nobody sent)",
  ["src/crypto/key_mgmt.rs", "src/crypto/eapol.rs", "src/elements/kde.rs", "src/elements/mod.rs: ReadElements"])
p("Exactly which frames are accepted; truncated and extended frames",
  "The reader of a management frame type accepts a byte string exactly if it is of type management, has its complete header and the fixed fields of the body (and elements behind them, if the reading library refuses empty reads at the end of data; with a valid association ID, category and action code where there is one) and, if asked for, a correct FCS; a data frame exactly if it is of type data and has the header its subtype and flags announce. Bytes added behind an accepted frame change neither header nor fixed fields, only lengthen elements or payload, add further elements at the end and leave every element that was found in place.",
  "all byte strings, all continuations",
  "every length and content of the frame, every place of truncation",
  ["src/frames/mgmt_frame/mod.rs", "src/frames/mgmt_frame/header.rs", "src/frames/mgmt_frame/body/*.rs", "src/frames/data_frame/mod.rs", "src/frames/data_frame/header.rs", "src/elements/mod.rs: ReadElements", "src/common/read_iterator.rs"])
p("A relayed frame keeps its meaning",
  "Whatever frame a reader accepts (any protocol version, any bits in reserved places) can be written again; the written frame has the length of the received one, differs from it only in the first byte (type and subtype of the reader, version 0) and in the two top bits of association IDs, and reading it gives the same header and body, so relaying any number of times changes nothing further.",
  "all byte strings accepted by the reader of each management frame type and of data frames, with and without FCS",
  "every accepted byte string, including those no writer of this library produces; refuted for data frames on big endian targets",
  ["src/frames/mgmt_frame/mod.rs", "src/frames/mgmt_frame/body/*.rs", "src/frames/data_frame/mod.rs", "src/common/mod.rs: strip_and_validate_fcs, attach_fcs"])
p("Different frames are different bytes",
  "If two frames of one type (or two element chains, control frames, data frames, or EAPOL key frames of one AKM suite) are written as the same bytes, they have equal headers, fields, elements and payload: nothing a caller sets is lost or confused with something else on the air.",
  "all pairs of admissible values of each type, with and without FCS",
  "all pairs of values",
  ["src/frames/mgmt_frame/mod.rs", "src/frames/data_frame/mod.rs", "src/frames/control_frame/mod.rs", "src/elements/element_chain.rs", "src/crypto/eapol.rs"])
p("Text output says what the value is",
  "Printing an association ID, a TIM bitmap or element, a PMKID, a rate or a VHT MCS map with its Display, Debug or defmt implementation gives text from which the value can be recovered: numbers in decimal (PMKIDs: two hexadecimal digits per byte), TIM bitmaps as the list of exactly the association IDs they indicate with 0 for group traffic; printing a received TIM element never panics. Printing an iterator over received data shows the items it still has to yield, in order.",
  "all values of these types, all received TIM elements, all iterators and received data",
  "distinct values must have distinct texts, for all pairs of values; all bitmaps",
  ["src/common/aid.rs: Debug", "src/elements/tim.rs: Display, Debug, defmt::Format", "src/elements/rsn.rs: IEEE80211Pmkid Display", "src/elements/rates/mod.rs: EncodedRate Display", "src/elements/vht.rs: VHTMCSMap Debug", "src/common/read_iterator.rs: ReadIterator Debug, defmt::Format"])
p("Receiving a key frame and the caller's buffer",
  "deserialize_eapol_data_frame works in the caller's buffer. A frame that is refused leaves the buffer as it was, so it can be tried with other keys; key data that is not encrypted is never touched; after a frame with encrypted key data is accepted, the buffer holds the same frame with the key data decrypted and the lengths adjusted, the FCS untouched; the frame can be read again.",
  "all buffers, keys, AKM suites, with and without FCS; any HMAC with 20 bytes of output and any invertible key wrap",
  "the state after every path through the function, for all frames; refuted: the MIC is not that of the decrypted frame, and a malformed key frame is noticed only after decryption",
  ["src/crypto/key_mgmt.rs: deserialize_eapol_data_frame"])
p("What is written depends on the value alone",
  "Writing any value of any frame or element type, also one no constructor makes, never panics; it either fails for every buffer or writes the same bytes into every buffer with enough room, whatever was in the buffer; nothing behind the reported size changes, the reported size is within the buffer, and a larger buffer never makes it fail.",
  "all values of all types that can be written, all buffers",
  "all values and pairs of buffers; refuted for A-MSDUs (padding), wrapped payloads with a MIC, one TIM bitmap and unknown data subtypes",
  ["src/elements/*.rs", "src/frames/mgmt_frame/mod.rs", "src/frames/control_frame/mod.rs", "src/frames/data_frame/mod.rs", "src/frames/data_frame/amsdu.rs", "src/crypto/eapol.rs"])
p("Exactly which received bytes make a receiver panic",
  "A receiver dispatches frames with match_frames!, looks up any element types of the library or raw elements in them, iterates association IDs, rates and RSN suites, and takes the payload of data frames out of its encapsulation and its A-MSDU. Nothing a peer sends panics it, except exactly: frames with FCS of fewer than four bytes, a mesh peering element of more than 24 bytes if mesh peering elements are asked for, a protected payload that is not a complete encapsulation with Ext IV set, and an A-MSDU subframe whose padding is cut off.",
  "all byte strings, with and without FCS, all lists of questions a receiver may ask about the elements of each frame type, all MIC lengths",
  "whole frames from dispatch to the last element, for every byte string: absence of panics outside the named cases",
  ["src/frames/mod.rs: GenericFrame, match_frames", "src/elements/mod.rs: ReadElements", "src/elements/**", "src/frames/mgmt_frame/body/**", "src/frames/data_frame/mod.rs: potentially_wrapped_payload", "src/frames/data_frame/amsdu.rs"])
p("A lookup depends only on the elements it asks for",
  "What a lookup of an element type or identifier among received elements returns (the first or all, typed or raw, and whether it panics) depends only on the received elements with that identifier and their order. Elements with other identifiers, known or not, can be inserted, removed or reordered without effect, and other elements in a frame leave its header and fixed fields as they are.",
  "all pairs of received byte strings with the same elements of the type, all element types, all management frame types with elements",
  "any number of other elements with any content at any position",
  ["src/elements/mod.rs: ReadElements", "src/frames/mgmt_frame/body/**"])
p("Sending a key frame and the caller's buffer",
  "Serialising an EAPOL key frame writes into the caller's buffer exactly the frame that is sent and leaves everything behind it as it was, whatever the outcome. If it is refused, key data that was to be encrypted is not left in the buffer in the clear.",
  "all headers, key frames, key data containers, keys, buffers and temporary buffers; every way in which serialisation succeeds, fails or panics",
  "the state of the buffer depends on where among seven checks the function stops, for every length of key data and buffer",
  ["src/crypto/key_mgmt.rs: serialize_eapol_data_frame"])
p("The byte order of the machine makes no difference",
  "Reading and writing frames, elements and key frames, looking up elements and receiving key frames give the same result on little endian and on big endian machines.",
  "all functions of the library that read or write bytes, all inputs, all pairs of builds that differ in the byte order of the machine only",
  "tests run on one machine; refuted for data frame headers, RSN capabilities, mesh peering elements, the FCS of dynamic frames and Michael, for which the exact difference is proved",
  ["src/frames/**", "src/elements/**", "src/crypto/**"])
p("Debug and release builds agree",
  "Whatever a function of the library returns in a debug build it returns in a release build too; only where a debug build panics because of a failed check may a release build go on.",
  "all functions of the library whose arithmetic or bit field setters are checked in debug builds and all functions that read or write bytes, all inputs",
  "tests run in one build, and only for some inputs",
  ["src/common/**", "src/frames/**", "src/elements/**", "src/crypto/**"])
p("A refused write leaves only bytes of the frame",
  "If writing an element, a list of elements, a frame or a key frame fails, with an error or a panic and wherever it stops, every byte of the caller's buffer is as it was before or is the byte that a successful write would have put there, and nothing behind the place of the frame has changed. Unless a length field is filled in afterwards, what is left is the front of the frame.",
  "all element types, chains, management, data and control frames, A-MSDUs, encapsulated payloads and key frames; all values, buffers and places at which the write may stop, including in the middle of an array",
  "the place where the write stops depends on the length of the buffer and of every part of the frame",
  ["src/elements/**", "src/frames/**", "src/crypto/eapol.rs", "src/crypto/crypto_header.rs", "src/common/mod.rs: attach_fcs"])
p("The kind of an error tells whether more bytes can help",
  "A frame that is refused with BadInput is refused whatever bytes follow; a frame that is refused with TooBig or BadOffset is the front of an accepted one. A value whose serialisation fails with BadInput cannot be written into any buffer; with another error a larger buffer takes it.",
  "all management, data and control frame types without FCS, A-MSDU subframes, CCMP and GCMP headers, key frames, all byte strings and all that may follow them; all writers, values and buffers",
  "all continuations of all inputs; refuted for the generic view, for key frames that announce too small a length and for SSIDs",
  ["src/frames/**", "src/crypto/crypto_header.rs", "src/crypto/eapol.rs", "src/elements/ssid.rs"])
p("A received element can be sent again",
  "Whatever value of an element type a lookup gives for a received frame, writing it gives an element with the same identifier and the bytes of the received one that belong to it, of the announced length, and looking it up gives the same value.",
  "all element types of the library, all received bodies including those with bytes behind the fields and with reserved bits set",
  "every byte string of every length is a possible body; refuted for HT operation and for RSN elements with PMKIDs",
  ["src/elements/**"])
p("A data frame reaches the station it is for",
  "A data frame that stations read, readdress to the next station and write again arrives after any number of hops with the same source, destination, payload, flags, sequence control and other header fields; and a frame that access points rebuild with the builder from the source, destination, BSSID and payload they read tells its last receiver the original source, destination and payload.",
  "all consistent headers and payloads, all accepted frames, any number of hops, each on a machine of either byte order and any build, with and without FCS",
  "the number of hops and the mixture of machines are unbounded; refuted for the builder calls in the documented order, and for duration and sequence control if an odd number of machines is big endian",
  ["src/frames/data_frame/header.rs", "src/frames/data_frame/builder.rs", "src/frames/data_frame/mod.rs"])
p("Key frames over any length of time, with anybody on the air",
  "A station that deserialises every frame it hears, keeps the last replay counter and takes the frames with a MIC and a newer counter takes only frames that were sent by somebody with the keys, each at most once, in order and with the fields and key data they were sent with, unless somebody can make a MIC of something never sent; and if each sent frame gets through, it takes exactly the frames sent, whatever else is heard.",
  "all histories: any number of sent frames, after each of them any number of any byte strings (replays, altered frames, junk); all keys, AKM suites with a MIC of 16 bytes, with and without FCS; any HMAC with 20 bytes of output and any invertible key wrap",
  "all interleavings of all histories of any length, with an adversary; refuted where a frame makes the receiver panic and for a receiver that does not look at the MIC bit itself",
  ["src/crypto/key_mgmt.rs:deserialize_eapol_data_frame", "src/crypto/key_mgmt.rs:serialize_eapol_data_frame", "src/crypto/eapol.rs"])
p("Frames through a noisy channel",
  "A station that dispatches every frame it hears with match_frames! with FCS runs, for any length of time, exactly the blocks of the frames that arrived intact, in the order of their arrival and with the headers and contents of the senders; copies with a burst of up to 32 changed bits, or with few changed bits anywhere, run no block and stop nothing.",
  "all sequences of intact and damaged copies of frames of 12 management frame types and data frames, all values, all sets and orders of arms, all bursts of up to 32 bits, up to two, three, four, five changed bits anywhere in frames of up to 2^29-1, 11454, 375, 37 bytes",
  "all histories of all damage patterns over all frames",
  ["src/common/mod.rs:strip_and_validate_fcs", "src/frames/mod.rs:match_frames", "src/frames/mod.rs:GenericFrame"])
p("Keys of different sessions are independent",
  "The PTK is determined by the PMK, the two addresses and the two nonces and by nothing else, whichever station comes first; sessions that differ in one of these get keys that have nothing to do with each other, as do KCK, KEK and TK of one session and the PMKID: any assignment of keys to different sessions is possible, and with a given HMAC two different sessions share a key only if two different messages have the same HMAC. The same holds of PRF outputs for different keys, labels and data.",
  "all PMKs, addresses and nonces, all lengths of up to 256 blocks, all labels without zero byte and all data, any HMAC with 20 bytes of output",
  "all pairs of sessions, and all functions from sessions to keys",
  ["src/crypto/key_mgmt.rs:derive_ptk", "src/crypto/key_mgmt.rs:prf", "src/crypto/key_mgmt.rs:prf_iter", "src/crypto/key_mgmt.rs:generate_pmkid"])
p("What a key frame tells those without the keys",
  "A sent key frame with encrypted key data tells nothing about the key data but its padded length: keys and key data enter the frame, the buffer and the error only through the wrapped key data and the MIC, so that the frame fits any other key data of that padded length. A receiver's answer to a frame, and what it leaves in the buffer, depends on the KEK only if the frame carries a correct MIC.",
  "all headers, key frames, key data of any length, keys, buffers and temporary buffers; all received byte strings, with and without FCS; any HMAC with 20 bytes of output and any invertible key wrap",
  "it compares the results of any two runs with different secrets; refuted for received frames that announce no MIC",
  ["src/crypto/key_mgmt.rs:serialize_eapol_data_frame", "src/crypto/key_mgmt.rs:deserialize_eapol_data_frame"])
p("Received bytes never yield more than they hold",
  "However counts and lengths inside received data are chosen, walking through it yields a number of items bounded by its size: at most one element per two bytes (and the elements with their headers fit into the bytes), no more from any lookup, at most one A-MSDU subframe per 16 bytes, RSN lists that together fit into the element, and from a TIM at most one station per bit of the bitmap, none twice, never more than 2007. The bounds for elements, A-MSDUs and TIMs are reached.",
  "all byte strings, all element types, all readers of items of a minimal size",
  "the bound has to hold for every choice of every count and length field in data of every size; receivers size their tables by it",
  ["src/elements/mod.rs", "src/elements/tim.rs:aid_iter", "src/elements/rsn.rs", "src/common/read_iterator.rs", "src/frames/data_frame/amsdu.rs"])
p("Fields of a frame can be changed in place",
  "Storing new flags, duration, addresses or sequence control at the offsets of the standard in a received or written frame (and bringing the FCS up to date) is the same as changing that field of the value and nothing else: reading the changed bytes gives the changed value, and writing the changed value gives the changed bytes, with the same errors and panics. The same holds of the timestamp of beacons and probe responses.",
  "all body types and payloads, all byte strings of at least a header, all buffers, all values of the fields that announce the same optional fields, any number of changes, with and without FCS",
  "it relates all pairs of frames that differ in a field; drivers and hardware patch frames (retry flag, sequence number, timestamp) without the library; refuted for numbers in data frames received on big endian machines",
  ["src/frames/mgmt_frame/mod.rs", "src/frames/mgmt_frame/header.rs", "src/frames/data_frame/mod.rs", "src/frames/data_frame/header.rs", "src/frames/mgmt_frame/body/beacon.rs"])
p("A dozing station learns from the beacons whether frames wait for it",
  "Over any length of time, an access point that announces in the TIM of its beacons for which stations it holds frames, among any other elements, tells every listening station that parses the beacon, looks up the TIM and iterates its association IDs exactly whether a frame has been queued for it since it last fetched its frames, and exactly whether group frames wait; nobody is told wrongly and nobody starves, whichever constructor of the bitmap is used, and the elements behind the TIM arrive.",
  "all histories of queueing, fetching and beacons, all sets of stations with IDs 1 to 2007, all headers, times and other elements of the beacons, all sets of arms of the station, with and without FCS",
  "a station that is never told starves for ever: all subsets of 2007 stations in all orders of events; refuted for tim_bitmap! (lowest ID a multiple of 16) and TIMBitmap::new_static",
  ["src/elements/tim.rs:new_raw", "src/elements/tim.rs:new_static", "src/elements/tim.rs:tim_bitmap", "src/elements/tim.rs:aid_iter", "src/elements/mod.rs:get_first_element", "src/frames/mod.rs:match_frames"])
p("Retransmitted frames are delivered once",
  "Senders repeat a frame by storing the retry flag in it (with a new FCS); a receiver that dispatches every frame with match_frames! with FCS, takes transmitter, sequence control and retry flag from the header, and drops frames with the retry flag that repeat the last sequence control of their transmitter, delivers every message of which a copy arrived intact exactly once, in the order in which the first intact copies arrived, whatever is lost, damaged or repeated.",
  "all numbers of senders, messages and copies, all sequences of arrivals in which a sender repeats a message with the retry flag and before its next one and counts its messages modulo 4096, less than 4096 in a row being lost; 12 management frame types and data frames, all values, all sets and orders of arms",
  "all histories of losses, damages and repetitions of any length; refuted on big endian machines, where a message can be taken for the repetition of another one",
  ["src/frames/mod.rs:match_frames", "src/common/mod.rs:strip_and_validate_fcs", "src/common/mod.rs:FCFFlags", "src/common/mod.rs:SequenceControl", "src/frames/mgmt_frame/header.rs", "src/frames/data_frame/header.rs"])
p("Replay protection with CCMP/GCMP packet numbers",
  "A sender seals the payload of data frames with a cipher of its own, wraps it with crypto_wrap and a rising packet number and writes it; a receiver reads whatever byte strings it hears, unwraps them with potentially_wrapped_payload, opens them with the key, packet number and header it reads, and takes what has a packet number above the last one. As long as nobody forges the cipher, it takes only messages that were sent, each at most once and in the order of sending, with their plaintext and authenticated header fields; and all of them if each gets through once, however often frames are replayed, altered or interspersed with others.",
  "all ciphers, keys, headers with payload, packet numbers below 2^48, plaintexts, MIC lengths, with and without FCS; all histories of messages sent and byte strings heard",
  "histories of any length with an attacker that replays and alters anything; refuted for key IDs other than 0, for incomplete protected frames (the receiver panics) and for big endian machines",
  ["src/frames/data_frame/mod.rs:potentially_wrapped_payload", "src/frames/data_frame/mod.rs:crypto_wrap", "src/crypto/crypto_header.rs:CryptoHeader", "src/crypto/crypto_header.rs:CryptoWrapper"])
p("Fragmented messages are reassembled exactly",
  "Senders write the pieces of a message as data frames with the More Fragments flag on all but the last, the fragment number and the message's sequence number; a receiver that dispatches every frame with match_frames! with FCS and joins the payloads by transmitter, sequence number, fragment number and flags, dropping marked repetitions, puts together exactly the messages of which all pieces arrived intact, each once, with their bytes and transmitters, in the order of completion, and never anything else, whatever is lost, damaged, repeated or sent in between by others.",
  "all numbers of senders, messages and pieces (up to 16), all contents and headers, all histories in which a sender sends one message after the other, the pieces in order, repetitions marked, and counts modulo 4096, less than 4096 messages in a row being lost; all sets and orders of arms with one for data frames",
  "all histories of losses, damages, repetitions and interleavings of any length; refuted on big endian machines, where fragment and sequence number are read from exchanged bytes",
  ["src/frames/mod.rs:match_frames", "src/common/mod.rs:FCFFlags", "src/common/mod.rs:SequenceControl", "src/common/mod.rs:strip_and_validate_fcs", "src/frames/data_frame/mod.rs", "src/frames/data_frame/header.rs"])
p("A scan finds the networks around",
  "A scanner dispatches every frame it hears with match_frames! with FCS, takes BSSID, SSID, channel (DSSS parameter set) and security (RSN element) from beacons and probe responses, and keeps the last sighting per BSSID. At any time its table has exactly one entry for each access point of which an intact announcement was heard, with the SSID, channel, cipher suites, AKMs and capabilities of the latest one, and no other entries, whatever else, damaged or not, is on the air and in whatever order the elements come.",
  "all numbers of networks and announcements, all SSIDs, channels and RSN contents, all further elements and orders, all headers and times, all sequences of arrivals with damaged copies and other frames in between, all sets and orders of arms",
  "histories of any length over all contents and element orders; refuted for networks that announce PMKIDs (their SSID can disappear) and for RSN capabilities on big endian machines",
  ["src/frames/mod.rs:match_frames", "src/frames/mgmt_frame/body/beacon.rs", "src/elements/mod.rs:get_first_element", "src/elements/ssid.rs", "src/elements/dsss_parameter_set.rs", "src/elements/rsn.rs", "src/common/mod.rs:strip_and_validate_fcs"])
p("Stations and access point agree on association IDs",
  "Stations send association requests; the access point gives every new station a free ID between 1 and 2007 and answers with association responses, also repeatedly; a station takes the ID of a successful response addressed to it. Whatever is lost, damaged, delayed, repeated or sent by others in between, no ID is given twice, every station that believes to have an ID has exactly the one in the access point's table, no two stations believe in the same one, nothing fails or panics, a station gets its ID as soon as a request and its response get through, it keeps it, and the TIM of the beacons tells each station by this ID whether frames for its address wait.",
  "all numbers of stations and frames, all histories of asking and hearing, all ways to choose free IDs, all contents and headers, all sets and orders of arms",
  "histories of any length with any number of stations; the invariant ties together two frame types, the ID encoding and the TIM",
  ["src/frames/mgmt_frame/body/assoc.rs", "src/common/aid.rs", "src/frames/mod.rs:match_frames", "src/elements/tim.rs", "src/common/mod.rs:strip_and_validate_fcs"])
p("Mesh stations agree about their links",
  "Mesh stations ask each other for links with peering open frames that carry their link ID, answer an open addressed to them with a peering confirm that carries their own and the received link ID, and accept a confirm with their own link ID. Whatever is lost, damaged, delayed, repeated or sent by others in between and wherever in the frame the peering element stands: if a link is established at one end (open and confirm received), the peer's link ID it has is the one the peer uses, and the peer has received the link ID this end uses; nothing fails or panics; two stations that asked each other have a link as soon as the frames and answers get through, and it lasts.",
  "all numbers of stations and frames, all histories of asking and hearing, all link IDs, PMKIDs, protocols, further elements and headers, all sets and orders of arms",
  "histories of any length with any number of stations; refuted for frames of strangers whose peering element is longer than 24 bytes, which stop everybody who receives them with a panic",
  ["src/elements/mesh/mesh_peering_management.rs", "src/frames/mgmt_frame/body/action/self_protected.rs", "src/frames/mod.rs:match_frames", "src/elements/mod.rs:get_first_element", "src/common/mod.rs:strip_and_validate_fcs"])
p("Aggregation does not change what is delivered",
  "Senders send messages (destination, source, content) in data frames of their own or packed together in A-MSDUs; a receiver dispatches every frame with match_frames! with FCS, takes the payload of data frames with potentially_wrapped_payload and delivers the subframes of A-MSDUs with their addresses and other payloads with destination_address and source_address of the header. It delivers exactly the messages of the packets that arrive undamaged, in the order of arrival and of packing, whatever is lost, damaged, repeated or sent by others in between; the same messages are delivered, however they are packed.",
  "all lists of messages of up to 65535 bytes and all ways to pack them, all headers of unprotected data frames in all four combinations of ToDS and FromDS, all buffers and their contents, all histories of arrival, all sets and orders of arms with one for data frames, both byte orders",
  "histories and packings of any length over all contents; refuted for A-MSDUs as the standard has them, whose messages are lost or panic the receiver",
  ["src/frames/data_frame/amsdu.rs", "src/frames/data_frame/mod.rs:potentially_wrapped_payload", "src/frames/data_frame/header.rs", "src/frames/mod.rs:match_frames", "src/common/mod.rs:strip_and_validate_fcs"])
p("What was said about the security in the clear cannot be changed by others without notice",
  "Before there are keys, an access point announces its security (beacon, probe response) and a station chooses one (association request) in RSN elements that anybody can forge; with the keys, each repeats its RSN element in a key frame. A receiver that takes authentic key frames with deserialize_eapol_data_frame, looks the RSN element up in the key data and in what it heard in the clear, and compares the two, goes on if and only if what it heard in the clear had the other side's RSN element; and then the security that get_first_element reads there is the other side's. Key data may be encrypted or not and contain further elements, and anything may be on the air besides.",
  "all elements heard in the clear, all histories of key frames with junk, altered copies and replays in which no MIC is forged, all keys, all key data elements, all RSN contents",
  "adversarial histories of any length and adversarial elements in the clear; refuted for RSN elements that the crate cannot read, behind which an attacker can put another one",
  ["src/crypto/key_mgmt.rs:deserialize_eapol_data_frame", "src/crypto/key_mgmt.rs:serialize_eapol_data_frame", "src/elements/mod.rs:get_first_element_raw", "src/elements/mod.rs:get_first_element", "src/elements/rsn.rs"])
p("Two sides of a link know which rates they have in common",
  "Stations tell their rates in beacons and association requests, the first eight in a supported rates element and the others in an extended supported rates element, both made with their constructors and anywhere in the frame; a listener dispatches with match_frames! with FCS, looks both elements up and iterates them. It knows the rates of exactly those stations of which it has heard a frame undamaged, all of them and in order; two stations that have heard each other compute the same common speeds, which are the ones they really have in common, and who tests whether it has the basic rates of the other decides rightly. Every list of 1 to 259 rates can be told so.",
  "all numbers of stations, all lists of 1 to 259 rates, all further elements and orders, all headers, all histories of arrival at both sides with damaged copies and other frames in between, all sets and orders of arms",
  "two histories of any length over all rate lists and element orders; agreement of two receivers that heard different frames",
  ["src/elements/rates/supported_rates.rs", "src/elements/rates/extended_supported_rates.rs", "src/elements/rates/mod.rs", "src/elements/rates/rate_iter.rs", "src/frames/mod.rs:match_frames", "src/elements/mod.rs:get_first_element"])
p("What stations announce about themselves is known to those who listen",
  "Stations announce things about themselves in elements of beacons, probe requests and responses, authentication, association, deauthentication, disassociation and mesh peering frames, and change them as time goes on; a listener dispatches with match_frames! with FCS and looks the element up with get_first_element. It knows of every station what it announced last among the frames that arrived undamaged, including that it announced nothing, and knows nothing of other stations. Holds for SSID, mesh ID, rates, DSSS and IBSS parameters, BSS load, HT capabilities, VHT capabilities and operation, mesh configuration, OWE transition mode and RSN elements.",
  "all element types that survive writing and reading, all values, all further elements, all headers, all eleven frame types, all numbers of stations, all histories of announcements with damaged copies and other frames in between, all sets and orders of arms",
  "histories of any length over all values and element types with changing announcements",
  ["src/elements/mod.rs:get_first_element", "src/elements/element_chain.rs", "src/frames/mod.rs:match_frames", "src/frames/mgmt_frame/mod.rs", "src/common/mod.rs:strip_and_validate_fcs"])
p("A listener keeps quiet for exactly as long as the frames it hears reserve the medium",
  "Stations write management, data and control frames with duration fields; a listener views every arriving frame with GenericFrame::new with FCS and, unless address_1 is its own, keeps quiet for duration() microseconds. At any time it is quiet if and only if an undamaged frame for somebody else has reserved that time, whatever else arrives. The receiver of an RTS frame reads it as ControlFrame and answers the sender with a CTS frame for the remaining time; no frame for another station, no frame that reserves less time than the answer takes, and no damaged frame is answered; every third station that hears the RTS frame or only the CTS frame is quiet until the end of the exchange.",
  "all management frame types, all data frames, all control frames, all headers, durations and receivers, all buffers, all histories and times of arrival with damaged copies, both byte orders",
  "histories of any length over all frame types and fields; three parties that hear different frames",
  ["src/frames/mod.rs:GenericFrame", "src/frames/control_frame/mod.rs", "src/frames/mgmt_frame/header.rs", "src/frames/data_frame/header.rs", "src/common/mod.rs:strip_and_validate_fcs"])
p("Protocols that users define in vendor specific action frames share a receiver",
  "Users define action frame types of their own outside of the library, as its documentation offers: matching with is_vendor_and_matches, writing the header with append_vendor_action_header and reading it with strip_and_check_vendor_action_header. Such a type matches exactly the action frames with its OUI. In a match_frames! with any number of such types with different OUIs, in any order, followed by arms for the library's types, every frame is given to the one protocol it belongs to, and all others are treated as if the protocols were not there; each block is run on exactly the undamaged messages of its protocol, with what the protocol's reader makes of the payload written.",
  "all payload writers and readers, all OUIs, all numbers and orders of protocols, all byte strings, all histories of arrival with repeated and damaged copies and frames of other types and vendors in between",
  "the extension point is open: all types anybody may define, all combinations of them and all byte strings",
  ["src/frames/mgmt_frame/body/action/mod.rs:is_vendor_and_matches", "src/frames/mgmt_frame/body/action/vendor.rs", "src/frames/mgmt_frame/body/mod.rs", "src/frames/mod.rs:match_frames"])
p("Stations of an ad hoc network agree on the time",
  "Stations send beacons with what their clock shows as timestamp; every station dispatches what arrives with match_frames! with FCS and sets its clock to the timestamp of a beacon of its network if that is later. Whatever is lost or damaged and whatever is sent in between, no station panics, and the clock of every station is the latest of those whose time has come to it, directly or through others: no clock is set back, none gets ahead of the one that was ahead of all others, and all to which the time of that one has come agree.",
  "all numbers of stations, all clocks of 64 bits, all headers and elements of beacons, all histories of beacons and other frames with any set of stations at which each arrives undamaged, damaged or not at all, all sets and orders of arms",
  "histories of any length in networks of any size, with every pattern of loss and damage",
  ["src/frames/mgmt_frame/body/beacon.rs", "src/frames/mgmt_frame/mod.rs", "src/frames/mod.rs:match_frames", "src/common/mod.rs:strip_and_validate_fcs"])
p("Acknowledged messages are delivered exactly once and in order",
  "A sender sends each message in a data frame with the next sequence number and repeats it with the retry flag until an acknowledgement for it arrives; the receiver dispatches with match_frames! with FCS, answers every frame of the sender with ControlFrame::Ack for its transmitter address, and delivers it unless it has the retry flag and repeats the last sequence control. The sender views what arrives with GenericFrame::new with FCS and reads it as ControlFrame. Whatever of the frames and of the acknowledgements is lost or damaged, the receiver has delivered the acknowledged messages, each once and in order, and at most the next one; when the sender is done, it has delivered all of them.",
  "all lists of messages, all numbers of attempts, all sequence numbers including their wrap-around, all headers, all patterns of loss and damage in both directions, other frames in between, both byte orders, all sets and orders of arms",
  "histories of any length in which any of the frames and acknowledgements are lost or damaged",
  ["src/frames/data_frame/header.rs", "src/frames/data_frame/mod.rs", "src/frames/control_frame/mod.rs", "src/frames/mod.rs:GenericFrame", "src/frames/mod.rs:match_frames", "src/common/mod.rs:strip_and_validate_fcs"])
if __name__ == "__main__":
    out = os.path.join(os.path.dirname(os.path.abspath(__file__)), "..", "properties.jsonl")
    with open(out, "w") as f:
        for x in P:
            f.write(json.dumps(x) + "\n")
    print(len(P))
