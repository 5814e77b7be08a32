# Formal model of ieee80211-rs: design

Source: `/repo` (crate `ieee80211`, version 0.5.9, pinned commit), read as text.
Model and proofs: `rocq/theories/`, Coq 8.16.1, standard library only.

## 1. Modelling approach

* A byte is an `N`; a byte string is a `list N`; "well formed" means every entry is below 256.
* `usize` lengths and offsets are `nat`; integers that travel on the air are `N`.
* Every fallible Rust function becomes a total function into `Res E A` with three
  constructors: `Ok a`, `Err e` (a Rust `Err`) and `Panic` (a Rust panic: slice out of range,
  `unwrap` on `Err`, arithmetic underflow that ends in a failed slice, a failed assertion).
* A `TryFromCtx` parser is a function `bytes -> Res err (A * nat)` (value, consumed size).
* A `TryIntoCtx` writer is a function `bytes -> Res err (bytes * nat)` (the buffer after
  writing, written size).  The content of the buffer after an `Err` is not modelled, except
  for `DynamicManagementFrame`, where it matters.
* `&mut self` methods return the new value.
* The three build/dependency facts the source text does not determine are parameters
  (`Class Cfg`), so every theorem holds for all of them or names the one it needs:
  * `strict_end`: whether scroll refuses a read/write that starts exactly at the end of the
    buffer (`offset >= len`, older releases) or only beyond it (`offset > len`);
  * `native_le`: endianness of the target (`gread`/`gwrite` without context use it);
  * `overflow_checks`: debug build (arithmetic overflow panics) or release build (wraps).
* Cryptographic primitives (HMAC, block cipher, key wrap) are arguments of the definitions; what the
  theorems need of them is a hypothesis (`hmac_sha1`: 20 bytes of output; `block_cipher`: decryption undoes
  encryption on 16 byte blocks). SHA-1/HMAC (`Sha1.v`), AES (`Aes.v`), RFC 3394 key wrap, RFC 5649 padded key
  wrap and PBKDF2 (`AesPad.v`) are defined concretely, with published vectors as Examples, and are proved to
  satisfy the hypotheses, so these are not vacuous. CRC-32 is modelled concretely.

## 2. Layers

| file | content |
|------|---------|
| Base.v | results, bytes, integers on the wire, scroll primitives, slices |
| Bits.v, Layouts.v, Enums.v | bit field structures generated by `bitfield-struct`; their tables; code point enums |
| Common.v, Crc.v, Utf8.v | frame control, subtypes, AID; FCS; UTF-8 validity |
| Elements.v, ElementTypes.v, Suites.v | TLV, iteration, lookup, chains; every element type; cipher and AKM suites |
| Rsn.v, Tim.v | RSN and TIM elements |
| Generic.v, Control.v, Mgmt.v, ActionState.v, Data.v, Amsdu.v, Builder.v | frames |
| CryptoHeader.v, Michael.v, Eapol.v, KeyMgmt.v, KeyMgmtState.v, KeyWrap.v | crypto |
| Stores.v | all writers step by step, for what a failing write leaves behind |
| Accessors.v, Hashes.v, Text.v, TextIter.v | durations, compile-time macros, comparison of rates; hashing; text output |
| Sha1.v, Aes.v, AesPad.v | concrete primitives for the parameters of the crypto part |
| Spec*.v | specifications that do not use model helpers |
| *Facts*.v | proofs |
| Prop*.v | property theorems only, closed by `exact`, with `Print Assumptions`, and Examples |

Conventions of the theorem names: `Cnn_...` belongs to property Cnn; `..._partial` proves a restricted form of the
property, the restriction being visible in its hypotheses; `..._refuted` proves that the unrestricted property is false of
the code, with a witness (see the findings below); everything else is proved as stated. `..._ex` are Examples that show
that the hypotheses can be met by non-trivial values.

## 3. Plan per property

| id | model | proof |
|----|-------|-------|
| C01 | `attach_fcs`, `strip_and_validate_fcs` over a concrete CRC-32 | list algebra, all lengths; the CRC register mirrors a remainder of polynomials over GF(2), the definition in the standard (SpecFcs.v) |
| C02 | same | CRC register update is injective in the state and in a 32-bit window; induction over the rest of the frame. Scattered bit errors: an undetected pattern is a vanishing sum of powers of x modulo the generator polynomial; x has order 2^32-1 (checked at the prime divisors), and no sum of two, three, four distinct small powers is 1 (two and four: checked with a search tree that is proved complete; three: by the discrete logarithms of 1 + x^a, given in FcsZech.v and checked there, no two of which are close) |
| C03 | `FrameType`, flags, FCF | finite sweep over 2^16 lifted by `forallb_forall` |
| C04 | `GenericFrame` | case analysis on length, all byte strings |
| C05 | `has_address_2` | refutation witness, exact set of omitted subtypes |
| C06 | enum tables | finite sweep / case analysis |
| C07 | generic bit field get/set on layout tables | one generic theorem, instantiated for each layout (sum of widths, offsets) |
| C08 | `AssociationID` | arithmetic on all 16 bit numbers |
| C09 | `ReadIterator`, raw TLV | induction on the length of the input |
| C10, C11 | chain, wrapped element, TLV writer | induction over the chain |
| C12 | lookup functions, vendor specific elements with a prefix (`new_prefixed`, Vendor.v) | refinement to filter/map on the list of elements; exact panic conditions; prefixed elements are found by prefix and as vendor specific elements |
| C13, C14, C15, C16, C22, C23 | element readers/writers | generic read-after-write lemmas |
| C17, C18 | RSN | case analysis on the first absent field, induction on lists; refutations |
| C19, C20, C21 | TIM | bit-level membership specification; refutations |
| C24, C25, C26 | management frames | generic theorem over bodies satisfying a round trip interface, instantiated |
| C27 | state machine with operation lists | induction over histories |
| C28 | control frames | case analysis |
| C29, C30, C31, C32 | data frames, builder | case analysis; specification table of roles |
| C33 | A-MSDU | induction over subframes; refutations |
| C34, C35 | crypto header and wrapper | refutations and partial round trip |
| C36 | Michael | refinement to specification over 32-bit words, invertibility |
| C37 | EAPOL key frame | read-after-write |
| C38, C39, C40 | PRF/PTK with HMAC as argument | induction over chunks; lexicographic order |
| C41, C42, C43 | serialise/deserialise with HMAC/AES-KW as arguments | composition; refutations; exact outcomes of both directions; a sent frame at any receiver, with any keys (SpecArrival.v) |
| C44, C45 | matching | case analysis |
| C46, C47 | VHT/HT MCS | refutations, bit-level membership |
| C48 | RSN builder calls, predefined elements | induction over the sequence of calls |
| C49, C51 | reader followed by writer | inversion of the reader, then the write lemmas |
| C50 | `ReadIterator`, A-MSDU iterator as state machines | induction over the number of calls |
| C52 | first element lookup | refinement to an inductive "first SSID" relation |
| C53 | durations | arithmetic |
| C54 | `PartialEq` implementations | "holds" relation between representations and content |
| C55 | VHT capability accessors | bit field lemmas |
| C56, C57 | RFC 5649 wrap, PBKDF2 over an arbitrary cipher/HMAC | inversion of the wrap loop by induction; list algebra |
| C58 | sizes reported by the readers | inversion of the sequence of reads; each step's size is known |
| C59 | data passed to the hasher by the derived `Hash` | bitmaps made by the constructors are zero outside the used part (invariant of the loop); arrays are then determined by the compared slice |
| C60 | the generic accessors and the typed readers, on one byte string | inversion of the typed reader gives the layout of the bytes; the generic fields of that layout are computed |
| C61 | writer, `GenericFrame::new`, `match_frames!`, typed reader, element lookup in sequence | composition of C01, C24, C29, C44 and C12 |
| C62 | key derivation, partitioning, serialising, deserialising and lookup in sequence | composition of C39, C40, C41 and C12; the padding as a sequence of elements, by induction on its length |
| C63 | typed readers on arbitrary bytes, on a frame and on the same frame with more bytes | both directions by computing each read from the length; every reader of a prefix is stable under extension (induction over the iteration for elements) |
| C64 | reader, writer and reader in sequence, on arbitrary bytes | inversion of the reader, the acceptance conditions of C63 and the round trips of C24 and C29; association IDs are normalised first |
| C65 | writers of two values | both are read back under a lenient reading library, whatever the library in use is: the encodings do not depend on it |
| C66 | the hand-written `Display`, `Debug` and `defmt::Format` implementations as functions to text | numerals by induction on the number, unique; lists and fields are separated by characters they do not contain; iterators for any text of the items |
| C67 | `deserialize_eapol_data_frame` as a function to the result and the caller's buffer afterwards | case analysis on the result, with the exact buffer after decryption; a second acceptance gives a collision of the MIC |
| C68 | all writers, all values | closure of the property (SpecUniform.v) under sequences, optional parts, back-patched lengths and the FCS; the exceptions characterised exactly (TIM, mesh peering, data subtypes, payloads with a MIC) or by witness |
| C69 | all byte strings, all questions of a receiver | SpecCrash.v: a receiver as arms of the dispatch with questions about elements; every arm reads without panic and hands over a part of the frame; the question panics only for the listed elements (exact); data frames by the exact outcome of the accessor and the A-MSDU iterator |
| C70 | pairs of byte strings with the same elements of one identifier | SpecNeighbours.v: the elements with an identifier as an inductive relation; the lookups by induction over it; insertion by the iteration over written elements (also where the last, empty element is not seen); frames: the readers of the fixed fields look only at the bytes in front of the elements |
| C71 | `serialize_eapol_data_frame` as a function to the result and the caller's buffer afterwards (KeyMgmtState.v) | the pieces of the frame in the buffer, followed through padding, wrapping and signing; the buffer for every outcome as one function of the specification (`buffer_after`) |
| C72 | every definition of the model is a function of the build; two builds that differ in `native_le` | functions which do not read or write in native order: equal as functions, by computation; the others (data header, sequence control, RSN capabilities, mesh peering, dynamic FCS): one lemma about reading two bytes in native order, carried through each reader, giving the exact difference (SpecPortable.v) |
| C73 | two builds that differ in `overflow_checks` | functions without checked arithmetic: equal as functions; the others: equal or the debug build panics, a relation preserved by sequencing |
| C74 | the writers step by step (Stores.v): programs of stores, sequences, fields filled in afterwards, padding and FCS, with the buffers a failing run may leave (`Left`); shown to give the results of the writers for every buffer | by induction over programs: a successful run changes exactly the bytes of its image, a failing one only bytes of it (SpecTorn.v); the image is the encoding wherever one is proved; for frames built step by step by induction over the calls |
| C75 | the readers of frames, subframes, CCMP headers and key frames; the writers as programs (C74) | `BadInput` is kept by longer inputs, carried through each reader; for the other errors an extension is constructed from the exact conditions of C63; writers by induction over programs: a larger buffer keeps both success and `BadInput` |
| C76 | the readers and writers of all element types | for every type an explicit function from the received body to what is kept of it; fixed layouts from C15 and C22, OWE and RSN by taking the body apart, lifted to lookups and whole elements with C10 to C12 |
| C77 | programs of hops and access points (SpecJourney.v) over the readers, writers, accessors and the builder | one hop from C29, its exact effect on the header by induction over the hops, with the parity of the big endian machines; access points by computing the builder's chains and the roles of C30 |
| C78 | a receiver that keeps the last replay counter (SpecReplay.v) over `deserialize_eapol_data_frame`; histories of sent frames and heard byte strings | an accepted frame either carries a MIC of something never sent or its MIC input is that of a sent frame, which determines all fields (C42); order by induction over what is heard, completeness by induction over the rounds with the counters of the past as invariant |
| C79 | a receiver that dispatches what it hears and goes on after errors, and a channel that damages copies of sent frames (SpecNoise.v) | C61 for the intact copies, C02 (lifted to every reader: C02_refused) for the damaged ones; induction over what arrives. Damage beyond the limits of C02 and frames cut short are not covered: the FCS cannot reveal all of it |
| C80 | `derive_ptk`, `prf`, `generate_pmkid` for an arbitrary HMAC; sessions (SpecSeparate.v) | for every assignment of keys to sessions an HMAC is constructed that takes the hashed message apart and answers with the wanted block; the same HMACs tell any two different sessions apart |
| C81 | `serialize_eapol_data_frame` and `deserialize_eapol_data_frame` (with the buffer), two runs with different keys, key data, HMAC and key wrap | all outcomes of C41 and C42 depend only on the length of the padded key data, its wrapped form and the MIC; for given key data a key wrap that exchanges the two |
| C82 | all iterators over received data (elements, lookups, `ReadIterator`, A-MSDU, TIM, RSN lists) | from the exact descriptions of what they yield (C09, C12, C50, C33, C19, C17); each bound with data that reaches it |
| C83 | readers and writers of management and data frames with any body type; patches at the standard's offsets | the readers split at the common header; the rest depends on nothing before it; writers of strings of equal lengths fail alike and leave the same rest |
| C84 | access point (queues, beacons) and station as programs over the API (SpecPowerSave.v), all histories | one beacon from C61 and C21; the bitmap bit by bit; the queue by induction over the history; starvation by witnesses for any number of beacons |
| C85 | senders and receiver as programs over the API (SpecRetry.v): retry flag stored in the frame, duplicate filter by transmitter and sequence control; all sequences of arrivals | what the receiver hears from C79; the frame with the flag is the frame of the changed header; the filter by induction over the arrivals, with the last arrival of every transmitter as invariant |
| C86 | sender and receiver as programs over the API with an arbitrary cipher (SpecLink.v): seal, `crypto_wrap`, write; read, `potentially_wrapped_payload`, open, compare packet numbers; all histories of messages and of byte strings heard | what is heard is decoded by the data frame readers of C33 to C35; the receiver by induction over the byte strings, with the last packet number as invariant |
| C87 | senders and receiver as programs over the API (SpecFragment.v): pieces as data frames with flags and sequence control, joined by transmitter and numbers; all sequences of arrivals | the frames by C33 and C79; the receiver by induction over the arrivals, with last piece and progress of every transmitter as invariant |
| C88 | access points and scanner as programs over the API (SpecScan.v): announcements as chains of elements in any order, the table as a fold over the results of `match_frames!`; all sequences of arrivals through the channel of C79 | the lookups by C12 on the written chain for all three element types, the RSN element by C17; the frames are `sent` in the sense of C79; the table by induction over the history |
| C89 | access point and stations as programs over the API (SpecAssoc.v), a step function over events and the set of all frames ever sent; disassociation is not part of it | an invariant of the steps: every frame on the air is `sent` (C79) with an ID of the table, the table only grows; the beacons by C84 |
| C90 | mesh stations as programs over the API (SpecPeering.v), a step function over events and the set of all frames ever sent; closing of links is not part of it | an invariant of the steps: every frame on the air is `sent` (C79) as an open with the link ID of its sender or a confirm of an open received; the peering element is found by a direct argument because its reader can panic (F19) |
| C91 | senders and receiver as programs over the API (SpecAggregate.v), a relation between what arrives and what is due | a written A-MSDU frame is also the frame with the padded subframes as plain payload, so it is `sent` in the sense of C79; C33 unpacks it |
| C92 | the receiver of C78 with a comparison of RSN elements looked up in the key data and in elements heard in the clear (SpecDowngrade.v) | C78_in_order gives the sent frame behind each taken one; unwrapping, padding (C62) and lookup give the sender's element; C17 for what it reads as |
| C93 | speakers and listeners as programs over the API (SpecRates.v), rates and speeds as in 9.4.2.3 | the frames are `sent` in the sense of C79; both lookups find the two halves (C14, lookups in chains); rate fields by a sweep over all bytes |
| C94 | announcers and listeners as programs over the API (SpecAnnounce.v), generic in the element type and the frame type | the frames are `sent` in the sense of C79; lookup in chains (C12) gives the first value; induction over the history |
| C95 | writers, listener and answering station as programs over the API (SpecReserve.v), times as natural numbers | the first ten bytes of every written frame (C24, C28, C29) seen through the generic view; damaged frames are refused (C02); induction over the history |
| C96 | action frame types defined by users as records of an OUI, a payload writer and a payload reader (SpecProtocols.v), built from the modelled helper functions; receiver as in C64 | the OUI test decides the prefix of the body (C45), hence which type a frame has (C44); induction over the arms and over the history of the channel |
| C97 | stations as programs over the API (SpecClocks.v), clocks as distances to an ideal clock, histories of beacons with the stations that each reaches | the frames are `sent` in the sense of C79, damaged ones are refused (C02); the paths along which a time has come characterise the latest one, by induction over the history |
| C98 | sender and receiver as programs over the API (SpecAck.v), attempts in which both directions can fail | data frames are `sent` in the sense of C79, acknowledgements are read as in C28; invariant: the first message of the sender has been delivered, and is then remembered by its number, or it has not |

Performance and lifetimes are not expressible in this model and are not claimed.

## 4. Trusted base

1. Coq 8.16.1's kernel (with `vm_compute` for Examples and finite sweeps) and `coqchk`.
2. `Print Assumptions` says "Closed under the global context" for every theorem in MANIFEST.json: no axioms are used,
   neither of the standard library nor any other. (Tools that list the axioms of all *loaded* libraries also show seven
   constants of `Coq.ssr.ssrunder`, which the standard library's `ssreflect` plugin files declare through a module
   type; no theorem depends on them.)
3. That the definitions in the model files say what the Rust code does. Every definition cites file and lines. This includes
   the following facts about code outside `/repo`, whose source was not available:
   * scroll 0.13: `pread/gread/pwrite/gwrite` check the offset and pass the remaining slice on; integers without
     context are in native byte order; `[u8]`, `[u8; N]`, `&str` with `StrCtx::Length`; a value cut short is `TooBig`, an offset behind the end `BadOffset` (arrays are read item by item, so that one cut short may also be reported as `BadOffset`; no theorem tells the two apart there); the behaviour at the exact end of a buffer is
     the parameter `strict_end`;
   * tlv-rs 0.3: type, length, payload; the length is what `measure_with` announces; more than 255 bytes are refused before anything is written;
   * bitfield-struct: fields from the least significant bit on, `with_`/`set_` assert the width in debug builds;
   * macro-bits (`bit!`, `check_bit!`, `set_bit!`), mac-parser (`MACAddress` is six bytes, ordered lexicographically),
     llc-rs (`SnapLlcFrame`: AA AA 03, OUI, EtherType, payload), crc32fast (CRC-32/ISO-HDLC);
   * const_soft_float: IEEE 754 single precision multiplication, rounding to nearest even (modelled with the standard
     library's `SpecFloat`);
   * hmac, sha1, pbkdf2, aes-kw: RFC 2104, FIPS 180-4, RFC 8018, RFC 3394 (`KekAes128::wrap/unwrap`) and RFC 5649
     (`wrap_with_padding`).
4. The specifications in `Spec*.v`, transcribed from IEEE Std 802.11-2020 and the RFCs.

Not modelled: derived `Debug` and `defmt` implementations (except where a hand-written one uses them), the text of MAC addresses and quoted strings
(parameters of C66_owe) and format specifications other than the plain one; `Hash` other than of TIM elements; `type_state.rs` marker types (the builder's states are
modelled as an explicit state in Builder.v, so the type restrictions appear as "the types admit this chain");
lifetimes and borrowing; the order of the stores inside one number or array (a failing store may leave any front of it, C74); `usize` overflow (lengths
are unbounded naturals; the theorems that depend on 16 or 32 bit fields say so); the re-exports in `lib.rs`; tests,
examples and benches.

## 5. Findings: where the code does not have the property

Each is proved by the named theorem. The theorems quantify over all configurations unless one is named.

| id | what the code does | theorems |
|----|--------------------|----------|
| F01 | `CryptoHeader::new` rejects only if packet number *and* key ID are out of range | C34_reject_refuted |
| F02 | the key ID is shifted out of its byte on reading, so every key ID reads as 0 (and the reserved bits 0 and 1 read as a key ID of 64 times their value) | C34_key_id_refuted, C86_key_refuted |
| F03 | RSN capabilities: a capable station does not announce MFPC, "required" is not read back, and a received "required" is taken as not capable | C18_mfp_capable_refuted, C18_mfp_received_refuted, C18_mfp_round_trip_refuted, C18_spp_read_refuted |
| F04 | `is_compatible` refuses compatible pairs | C18_compatible_refuted |
| F05 | RSN PMKID list: count times four on the air, announced length too short by 12 bytes per PMKID; received elements with different PMKIDs compare as equal | C17_pmkid_count_refuted, C17_pmkid_measure_refuted, C17_pmkid_read_refuted, C17_pmkid_spill (exactly what a receiver is told), C17_pmkid_ssid_refuted, C17_pmkid_hides_refuted, C88_pmkid_refuted, C54_rsn_pmkid_refuted, C76_rsn_pmkid_refuted |
| F06 | RSN elements with gaps lose the fields behind the gap; the OWE constant is one | C48_owe_refuted |
| F07 | frames with FCS shorter than four bytes panic | C04_new_refuted (and the exact panic conditions in C01, C26) |
| F08 | RTS and other control subtypes are said to have no second address | C05_refuted, C04_address_2_refuted, C60_rts_refuted |
| F09 | a chain ending in a raw element announces two bytes too few; reading a raw extension element reports the size 1 | C11_measure_refuted, C11_raw_extension_size_refuted |
| F10 | `ReadIterator::len` is the number of bytes, not of items | C50_len_refuted |
| F11 | `parse_raw_element_as` panics on short vendor elements | C12_parse_raw_refuted |
| F12 | rates of 64 Mbit/s and more are truncated or panic; unchecked rates elements are cut off but announced in full | C14_unrepresentable_refuted, C14_unchecked_refuted |
| F13 | TIM `new_static`: announced length always one short (a receiver misses the last byte and takes it for the next element, so that the element behind the TIM is lost), IDs from 16 on reported as others, group traffic reported as traffic for AID 1 | C20_static_element_refuted, C84_static_refuted, C84_static_next_refuted, C20_static_group_refuted, C20_static_length_refuted, C20_static_shift_refuted, C54_tim_length_refuted |
| F14 | `aid_iter` never reports the AID of the very first transmitted bit, and panics on oversized bitmaps in debug builds | C19_refuted, C19_oversized_refuted, C84_macro_refuted |
| F15 | TIM without bitmap but with indicator: announced 3, written 4 bytes; `tim_bitmap![0, 0]` panics when written | C21_indicator_refuted, C20_zero_refuted |
| F16 | VHT MCS map from an iterator: panic or wrong map from the fifth stream on, unlisted streams reported as supported | C46_long_refuted, C46_unlisted_refuted |
| F17 | HT operation elements do not survive writing and reading; input two bytes too short is accepted | C16_refuted, C16_short_refuted, C76_ht_operation_refuted |
| F18 | MCS index 76 dropped; predicates on the transmit flags differ from the standard | C47_generate_refuted, C47_flags_refuted |
| F19 | mesh peering elements of more than 24 bytes panic when looked up | C23_robust_refuted, C12_no_panic_refuted, C90_stranger_refuted |
| F20 | `length_in_bytes` of an Ack frame is 14, written are 8 | C28_length_refuted |
| F21 | `match_frames!` with `with_fcs: false` behaves like `true` | C44_with_fcs_refuted |
| F22 | optional header fields that do not agree with flags or subtype are written, and read back as something else | C24_ht_refuted, C24_order_refuted, C29_optional_refuted, C29_payload_refuted, C29_unknown_subtype_refuted |
| F23 | `bssid_mut` and `bssid` are different fields in A-MSDU frames; a BSSID is reported with both DS flags | C30_mut_refuted, C30_bssid_refuted |
| F24 | data frame builder: the documented chain exchanges source and BSSID; QoS control, HT control and fourth address can be left out of frames whose flags announce them | C31_from_ds_refuted, C31_from_ds_exchanged, C77_documented_order_refuted, C31_both_amsdu_refuted, C32_others_never, C32_qos_refuted, C32_order_refuted, C32_fourth_refuted |
| F25 | the payload accessor of a protected frame panics on short or malformed payloads | C35_panic_refuted, C86_panic_refuted |
| F26 | A-MSDU: little endian length, padded last subframe, announced length short, panic on unpadded input | C33_standard_refuted, C33_length_refuted, C33_buffer_refuted, C33_frame_any_buffer (which buffers), C33_panic_refuted, C91_standard_refuted |
| F27 | EAPOL: MIC over a non-zero MIC field, several panics on received frames and short buffers, 16 bit lengths truncated | C37_length_field_refuted, C41_empty_data_refuted, C41_long_mic_refuted, C41_mic_field_refuted, C41_mic_field and C41_empty_data (for every such frame), C41_short_buffer_refuted, C43_*_refuted, C78_panic_refuted (one such frame ends a receiver) |
| F28 | silent truncation: PRF counter beyond 256 blocks, ATIM window | C38_counter_refuted, C53_atim_refuted |
| F29 | vendor and mesh action bodies announce one byte too few | C25_refuted |
| F30 | writing a received frame drops protocol version bits, bytes behind null frames, and the two top bits of AIDs | C49_version_refuted, C49_aid_refuted, C51_refuted |
| F31 | native byte order on the air (C72 gives the exact difference): FCS of dynamic frames, RSN capabilities, sequence control and duration, mesh fields | C17_big_endian_refuted, C88_big_endian_refuted, C04_sequence_refuted, C23_byte_order_refuted, C27_fcs_refuted, C29_big_endian_refuted, C83_big_endian_refuted, C85_big_endian_refuted, C86_big_endian_refuted, C87_big_endian_refuted, C64_big_endian_refuted, C60_sequence_refuted, C60_duration_refuted |
| F32 | if scroll refuses empty reads at the end of data: hidden SSIDs, empty lists and empty bodies are lost | C10_strict_end_refuted, C17_strict_end_refuted, C24_strict_end_refuted, C37_strict_end_refuted, C76_owe_strict_end_refuted |
| F33 | `is_eapol_key_frame` accepts every EAPOL frame | C44_eapol_refuted |
| F34 | Michael takes the key apart with `to_be`, wrong on big endian targets | C36_big_endian_refuted |
| F35 | `wrap_eapol_key_data` uses the padded wrap (RFC 5649); the receiver's RFC 3394 unwrap never accepts it | C56_unwrap_refuted, C56_received_refuted |
| F36 | the size reported when reading a data frame or a raw or vendor action frame excludes the payload, for every frame the FCS; for an A-MSDU subframe it includes padding that is not there | C58_data_refuted, C58_action_refuted, C58_fcs_refuted, C58_subframe_refuted |
| F37 | TIM elements with static bitmaps that differ behind the used part are equal but hash differently | C59_refuted |
| F38 | the padding of decrypted key data is returned with it; it reads as a vendor element and SSID elements without information, so a lookup of the SSID finds one nobody sent, exactly when four bytes of padding or more are needed | C62_padding_refuted, C62_padding_elements, C62_padding_ssid |
| F39 | the predefined element for WPA2 and WPA3 stations requires management frame protection, which keeps out WPA2 stations without it | C48_transition_refuted |
| F40 | defmt prints an empty list behind every non-empty list of association IDs of a TIM, and leaves out the group traffic that `Display` shows | C66_defmt_refuted, C66_group_traffic_refuted |
| F41 | a PMKID is printed without its leading zeros | C66_pmkid_refuted |
| F42 | receiving a key frame decrypts it in the caller's buffer and leaves the MIC of the encrypted frame there: the same buffer is refused with `InvalidMic` the second time; a frame whose key descriptor is unknown is refused only after it has been decrypted, so another handler of that descriptor gets an altered frame | C67_twice_refuted, C67_refused_refuted |
| F43 | `strip_and_check_vendor_action_header` moves the caller's offset also if the check fails, so a second OUI cannot be tried with the same variable; `append_vendor_action_header` may have written the category when it fails | C45_offset_refuted, C45_several_refuted |
| F44 | the padding of A-MSDU subframes is never written: up to three bytes per subframe of what was in the buffer before are sent | C68_amsdu_refuted |
| F45 | sending a key frame that is to be encrypted: the plain frame is written into the caller's buffer first and stays there if the KEK is missing or a buffer is too short (or the sender panics) | C71_clear, C71_clear_refuted |
| F46 | `AssociationID::new()` and `default()` are public and give the ID 0, which the documentation rules out; a default mesh peering confirm body is sent with it and refused by the receiver | C08_default_refuted |
| F47 | `GenericFrame::new`, and so `match_frames!`, answer a byte string that is too short with `BadInput` instead of an error that says that bytes are missing, as the frame readers do; an EAPOL key frame whose announced length is too small for its own fields is answered as if bytes were missing, and an SSID or a list of rates that is too long with `TooBig`, which elsewhere means too few bytes | C75_generic_refuted, C75_key_refuted, C75_ssid_refuted |
| F48 | `deserialize_eapol_data_frame` ("decrypt, verify and deserialize") checks the MIC only if the received frame itself announces one: given a KCK, a frame of anybody without that bit is accepted, so that the caller must look at the bit | C78_unannounced_refuted, C42_not_announced |
| F49 | a frame that announces encrypted key data but no MIC is decrypted, and the answer tells whether the key data unwraps with the KEK, to anybody and although the receiver has a KCK | C81_oracle_refuted |
| F50 | `get_first_element` skips elements that cannot be read, `get_first_element_raw` does not: the two can speak of different elements, which defeats a comparison of RSN elements byte by byte if the genuine one is unreadable | C92_unreadable_refuted |

## 6. Testing the theorems

`tools/mutate.py` edits one definition of the model in a scratch copy, rebuilds, replaces each proof that breaks by
`Admitted` until everything compiles, and reports which property theorems now rest on an admitted lemma. One line per
attempt is in `seeded/LOG.jsonl` (collected by `tools/collect_log.py`), with the theorems that were added or tightened if
nothing failed at first. `tools/sweep.py` generates such edits at random from the text of the
model (numbers, comparisons, byte orders, list items, match arms, arguments) and tries many of them, looking only for the first lemmas that break and the
property theorems that rest on them. `tools/gen_properties.py` and `tools/gen_manifest.py` write properties.jsonl and MANIFEST.json.

`RepoTests.v` evaluates the project's own tests, documentation examples, examples and captured frames in the model
(`RepoBytes.v`, generated by `tools/gen_repo_tests.py`, holds the files of /repo/bins). These are conformance checks of the
model against results the project states itself; they are not claims and are not in the manifest. The crypto test vectors
are beside C36, C38, C39 and C41; the two PBKDF2 vectors (4096 iterations) are not evaluated. Two tests hold on little
endian targets only (`test_gf_beacon`, `test_rsn_element_rw`), which is finding F31.
