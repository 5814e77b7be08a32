(** C52 to C55: SSIDs, durations, comparison, VHT; further theorems for C03, C08, C11 to C14, C18, C33 and C35. *)
From Coq Require Import SpecFloat.
From Verif Require Import Base SpecBase BaseFacts SpecCommon Common Enums Utf8 SpecUtf8 Utf8Facts Elements SpecElements ElementTypes SpecElementTypes Rsn SpecRsn Tim SpecTim
  Mgmt SpecMgmt AidFacts CryptoHeader Amsdu Data SpecData Accessors SpecAccessors AccessorFacts AccessorFacts2 RateFacts AccessorFacts3.

(** ** C52 *)
(** The elements of the frame are [es], followed by bytes that are no element. *)
Theorem C52_beacon : forall (cfg : Cfg) (b : BeaconLikeBody bytes) es tail,
  bb_elements b = enc_elements es ++ tail -> Forall fits es -> end_visible es tail -> iteration_end tail ->
  exists r, beacon_ssid b = Ok r /\ first_ssid es r.
Proof. exact @beacon_ssid_spec. Qed.
Print Assumptions C52_beacon.
Theorem C52_probe : forall (cfg : Cfg) (b : ProbeRequestBody bytes) es tail,
  pq_elements b = enc_elements es ++ tail -> Forall fits es -> end_visible es tail -> iteration_end tail ->
  exists r, probe_ssid b = Ok r /\ first_ssid es r.
Proof. exact @probe_ssid_spec. Qed.
Print Assumptions C52_probe.
(** every byte string is of this form, so the accessors always return *)
Theorem C52_beacon_total : forall (cfg : Cfg) (b : BeaconLikeBody bytes), exists es tail r,
  bb_elements b = enc_elements es ++ tail /\ iteration_end tail /\ beacon_ssid b = Ok r /\ first_ssid es r.
Proof. exact @beacon_ssid_total. Qed.
Print Assumptions C52_beacon_total.
Theorem C52_probe_total : forall (cfg : Cfg) (b : ProbeRequestBody bytes), exists es tail r,
  pq_elements b = enc_elements es ++ tail /\ iteration_end tail /\ probe_ssid b = Ok r /\ first_ssid es r.
Proof. exact @probe_ssid_total. Qed.
Print Assumptions C52_probe_total.
(** there is only one first SSID *)
Theorem C52_first : forall (cfg : Cfg) es r r', first_ssid es r -> first_ssid es r' -> r = r'.
Proof. exact @first_ssid_fun. Qed.
Print Assumptions C52_first.
(** an SSID in front of a chain of elements is what the receiver gets *)
Theorem C52_written : forall (cfg : Cfg) s c raws t i cap, ok_ssid s -> end_ok s ->
  Forall2 item_element (chain_items c) raws -> Forall wf_item (chain_items c) -> Forall fits raws -> end_visible raws [] ->
  let els := enc_elements (mkRaw 0 s :: raws) in
  Writes (wr_chain (ChainLink (Typed (elem_of SSIDElement s)) c)) els /\
  beacon_ssid (mkBeacon t i cap els) = Ok (Some s) /\ probe_ssid (mkProbeReq els) = Ok (Some s).
Proof. exact @ssid_built. Qed.
Print Assumptions C52_written.
Theorem C52_hidden : forall s, ssid_is_hidden s = true <-> s = [].
Proof. exact @ssid_hidden. Qed.
Print Assumptions C52_hidden.
(** an unreadable SSID element and another element in front of the SSID, garbage behind it *)
Example C52_ex (cfg : Cfg) : let es := [mkRaw 3 [6]; mkRaw 0 [0xff]; mkRaw 0 [84; 101; 115; 116]]%N in
  Forall fits es /\ end_visible es [1]%N /\ iteration_end [1]%N /\ first_ssid es (Some [84; 101; 115; 116]%N) /\
  beacon_ssid (mkBeacon 0 0 0 (enc_elements es ++ [1]%N)) = Ok (Some [84; 101; 115; 116]%N).
Proof.
  cbn zeta. split; [repeat constructor; unfold fits; cbn; lia|]. split; [right; left; discriminate|]. split; [now left|]. split.
  - apply fs_skip; [intros s (E & _); discriminate|]. apply fs_skip.
    + intros s ([= <-] & _ & U & _). apply utf8_spec in U. discriminate.
    + apply fs_here. split; [reflexivity|]. split; [cbn; lia|]. split; [apply utf8_spec; reflexivity|right; discriminate].
  - destruct cfg as [[] [] []]; vm_compute; reflexivity.
Qed.

(** ** C53 *)
Theorem C53_beacon : forall (cfg : Cfg) bs b n, wf_bytes bs -> rd_beacon bs = Ok (b, n) ->
  beacon_timestamp_us b = le_val (firstn 8 bs) /\ beacon_interval_us b = (1024 * le_val (firstn 2 (skipn 8 bs)))%N.
Proof. exact @beacon_times. Qed.
Print Assumptions C53_beacon.
Theorem C53_atim_round_trip : forall w, (w < 65536)%N -> ibss_new (atim_window_us w) = w.
Proof. exact @atim_round_trip. Qed.
Print Assumptions C53_atim_round_trip.
(** the largest number of time units not longer than the duration *)
Theorem C53_atim_partial : forall d, (d < 65536 * 1024)%N ->
  (atim_window_us (ibss_new d) <= d < atim_window_us (ibss_new d) + 1024)%N.
Proof. exact @atim_floor. Qed.
Print Assumptions C53_atim_partial.
Theorem C53_atim_exact : forall d, atim_window_us (ibss_new d) = (1024 * ((d / 1024) mod 65536))%N /\
  (d < 65536 * 1024 <-> atim_window_us (ibss_new d) <= d < atim_window_us (ibss_new d) + 1024)%N.
Proof. exact (fun d => conj (atim_exact d) (atim_wrong d)). Qed.
Print Assumptions C53_atim_exact.
Theorem C53_atim_refuted : exists d, ibss_new d = 0%N /\ (1024 * 65535 < d)%N.
Proof. exact @atim_truncates. Qed.
Print Assumptions C53_atim_refuted.
Example C53_ex (cfg : Cfg) : let bs := le_bytes 8 0x1122334455 ++ le_bytes 2 100 ++ [1; 0; 0; 0]%N in
  wf_bytes bs /\ exists b n, rd_beacon bs = Ok (b, n) /\ beacon_timestamp_us b = 0x1122334455%N /\ beacon_interval_us b = 102400%N.
Proof.
  cbn zeta. split; [apply wf_bytesb_spec; reflexivity|]. destruct cfg as [[] [] []]; (do 2 eexists; (split; [vm_compute; reflexivity|split; reflexivity])).
Qed.

(** ** C54 *)
(** TIM elements: [tim_holds t v] says what element [t] holds, whatever the type of its bitmap. Bitmaps that make the
    code panic hold nothing. *)
Theorem C54_tim : forall a b v w, tim_holds a v -> tim_holds b w -> exists r, te_eq a b = Ok r /\ (r = true <-> v = w).
Proof. exact @te_eq_spec. Qed.
Print Assumptions C54_tim.
Theorem C54_tim_reflexive : forall a v, tim_holds a v -> te_eq a a = Ok true.
Proof. exact @te_eq_refl. Qed.
Print Assumptions C54_tim_reflexive.
Theorem C54_tim_symmetric : forall a b v w, tim_holds a v -> tim_holds b w -> te_eq a b = te_eq b a.
Proof. exact @te_eq_sym. Qed.
Print Assumptions C54_tim_symmetric.
Theorem C54_tim_transitive : forall a b c u v w, tim_holds a u -> tim_holds b v -> tim_holds c w ->
  te_eq a b = Ok true -> te_eq b c = Ok true -> te_eq a c = Ok true.
Proof. exact @te_eq_trans. Qed.
Print Assumptions C54_tim_transitive.
Theorem C54_tim_written : forall (cfg : Cfg) a b v, tim_holds a v -> tim_holds b v -> valid_tim v -> exists bs,
  Writes (wr_tim a) bs /\ Writes (wr_tim b) bs.
Proof. exact @tim_same_bytes. Qed.
Print Assumptions C54_tim_written.
(** but equal elements do not always announce the same length *)
Theorem C54_tim_length_refuted : forall (cfg : Cfg), exists a b, te_eq a b = Ok true /\ et_measure TIMElement a <> et_measure TIMElement b.
Proof. exact @tim_equal_measure. Qed.
Print Assumptions C54_tim_length_refuted.
Theorem C54_rates : forall x y, exists r, rates_eq x y = Ok r /\ (r = true <-> rates_hold x = rates_hold y).
Proof. exact @rates_eq_spec. Qed.
Print Assumptions C54_rates.
Theorem C54_rates_written : forall t x y, rates_eq x y = Ok true -> forall buf, rates_write t x buf = rates_write t y buf.
Proof. exact @rates_same_bytes. Qed.
Print Assumptions C54_rates_written.
(** rates that were written and read again compare equal to the original *)
Theorem C54_rates_received : forall (cfg : Cfg) t ok l bs y,
  t = SupportedRatesElement /\ ok = 8 \/ t = ExtendedSupportedRatesElement /\ ok = 255 ->
  wf_bytes l -> length l <= ok -> Writes (et_write t l) bs -> ReadsAll (et_read t) bs y -> rates_eq (Arr l) (Iter y) = Ok true.
Proof. exact @rates_received. Qed.
Print Assumptions C54_rates_received.
(** RSN elements, lists as arrays or received: [shows x v] says what [x] stands for *)
Theorem C54_rsn : forall (cfg : Cfg) x y v w, shows x v -> shows y w -> ok_view v -> ok_view w -> (rsn_eqb x y = true <-> v = w).
Proof. exact @RsnFacts3.rsn_eqb_spec. Qed.
Print Assumptions C54_rsn.
(** Received elements with PMKIDs: what was received does not stand for what was sent (C17), and elements with different PMKIDs are equal. *)
Theorem C54_rsn_pmkid_refuted : forall (cfg : Cfg), exists v w x y n m, ok_view v /\ ok_view w /\ gap_free v /\ gap_free w /\ v <> w /\
  pmkid_count v = 1 /\ pmkid_count w = 1 /\
  rd_rsn (enc_rsn 1 v) = Ok (x, n) /\ rd_rsn (enc_rsn 1 w) = Ok (y, m) /\ rsn_eqb x y = true.
Proof. exact @RsnFacts4.pmkids_equal. Qed.
Print Assumptions C54_rsn_pmkid_refuted.
Theorem C54_rsn_written : forall (cfg : Cfg) x y v, shows x v -> shows y v -> ok_view v -> gap_free v -> length (enc_rsn 4 v) <= 255 ->
  exists bs, Writes (wr_rsn x) bs /\ Writes (wr_rsn y) bs.
Proof. exact @rsn_same_bytes. Qed.
Print Assumptions C54_rsn_written.
Example C54_ex : let v := (0, 1, Some (3, Some [4; 0]))%N in
  tim_holds (mkTIM 0 1 (Some (mkTB 3%N (Some (BStatic [4; 0; 0]%N 1))))) v /\ tim_holds (mkTIM 0 1 (Some (mkTB 3%N (Some (BSlice [4; 0]%N))))) v /\ valid_tim v.
Proof. cbn zeta. split; [repeat split|]. split; [repeat split|]. split; [cbn; lia|]. split; [reflexivity|]. split; [reflexivity|]. repeat constructor. Qed.

(** ** C55 *)
Theorem C55_get : forall info, maximum_mpdu_length_in_bytes info = mpdu_length (info mod 4).
Proof. exact @mpdu_length_get. Qed.
Print Assumptions C55_get.
Theorem C55_set : forall info len, (info < 2 ^ 32)%N ->
  let info' := with_maximum_mpdu_length_in_bytes info len in
  (info' < 2 ^ 32)%N /\ (info' / 4 = info / 4)%N /\
  maximum_mpdu_length_in_bytes info' = (if existsb (N.eqb len) [3895; 7991; 11454]%N then Some len else None).
Proof. exact @mpdu_length_set. Qed.
Print Assumptions C55_set.
Example C55_ex : maximum_mpdu_length_in_bytes 0x0f8379b2 = Some 11454%N /\ with_maximum_mpdu_length_in_bytes 0x0f8379b2 7991 = 0x0f8379b1%N.
Proof. split; reflexivity. Qed.

(** ** Further theorems *)
(** two frame types match exactly if the standard's type field is the same *)
Theorem C03_type_matches : forall a b, type_matches a b = true <-> fst (spec_type_of a) = fst (spec_type_of b).
Proof. exact @frame_types_match. Qed.
Print Assumptions C03_type_matches.
Theorem C03_type_bits : forall a b, type_matches a b = true <-> (frame_type_into_bits a mod 4 = frame_type_into_bits b mod 4)%N.
Proof. exact @frame_types_match_bits. Qed.
Print Assumptions C03_type_bits.
Theorem C07_sequence_control : forall f s, (f < 16)%N -> (s < 4096)%N ->
  seq_fragment_number (sequence_control f s) = f /\ seq_sequence_number (sequence_control f s) = s.
Proof. exact @sequence_numbers. Qed.
Print Assumptions C07_sequence_control.
Theorem C07_sequence_control_all : forall x, (x < 65536)%N ->
  sequence_control (seq_fragment_number x) (seq_sequence_number x) = x /\ (seq_fragment_number x < 16)%N /\ (seq_sequence_number x < 4096)%N.
Proof. exact @sequence_numbers_inv. Qed.
Print Assumptions C07_sequence_control_all.
Example C07_sequence_ex : sequence_control 5 0xabc = 0xabc5%N.
Proof. reflexivity. Qed.
(** the macro accepts what the checked constructor accepts, as plain number *)
Theorem C08_macro : forall (cfg : Cfg) n, (n < 65536)%N ->
  (1 <= n <= 2007 -> exists a, aid_macro n = Ok a /\ aid_new_checked n = Some a)%N /\
  (~ (1 <= n <= 2007) -> aid_macro n = Panic)%N.
Proof. exact @aid_macro_spec. Qed.
Print Assumptions C08_macro.
(** Whatever is checked, made by the macro, received or reported by a TIM is an ID between 1 and 2007 ... *)
Theorem C08_valid_partial : forall (cfg : Cfg),
  (forall n a, aid_new_checked n = Some a -> ok_aid a) /\
  (forall n a, (n < 65536)%N -> aid_macro n = Ok a -> ok_aid a) /\
  (forall bs r n a, rd_assoc_resp bs = Ok (r, n) -> ar_aid r = Some a -> ok_aid a) /\
  (forall bs r n, rd_mesh_confirm bs = Ok (r, n) -> ok_aid (mc_aid r)) /\
  (forall t l, tb_aid_iter t = Ok (Some l) -> Forall ok_aid l).
Proof. exact @aids_valid. Qed.
Print Assumptions C08_valid_partial.
Example C08_valid_ex (cfg : Cfg) : rd_mesh_confirm [15; 2; 0; 0; 5; 192; 0; 0]%N = Ok (mkConfirm 0 49157%N [0; 0]%N, 8) /\
  tb_aid_iter (mkTB 0%N (Some (BSlice [2; 1]%N))) = Ok (Some [49153; 49160]%N).
Proof. destruct cfg as [[] [] []]; split; vm_compute; reflexivity. Qed.
(** ... but not the default value, which the documentation says cannot exist: a confirm frame with it is sent and refused. *)
Theorem C08_default_refuted : forall (cfg : Cfg), ~ ok_aid aid_default /\ aid_aid aid_default = 0%N /\
  let h := mkMH 0 0 (repeat 0%N 6) (repeat 0%N 6) (repeat 0%N 6) 0 None in
  exists buf n e, wr_mgmt MeshPeeringConfirm h (mkConfirm 0 aid_default (c_bytes [221; 0]%N)) false (repeat 0%N 64) = Ok (buf, n) /\
    pread (rd_mgmt MeshPeeringConfirm false) (firstn n buf) 0 = Err e.
Proof. exact @default_aid. Qed.
Print Assumptions C08_default_refuted.
(** identifiers *)
(** the identifiers of the standard and of the vendors by which each type of element is written and looked up *)
Theorem C12_ids : forall (cfg : Cfg),
  (et_id SSIDElement = Id 0 /\ et_id SupportedRatesElement = Id 1 /\ et_id DSSSParameterSetElement = Id 3 /\ et_id TIMElement = Id 5
   /\ et_id IBSSParameterSetElement = Id 6 /\ et_id BSSLoadElement = Id 11 /\ et_id HTCapabilitiesElement = Id 45 /\ et_id RsnElement = Id 48
   /\ et_id ExtendedSupportedRatesElement = Id 50 /\ et_id HTOperationElement = Id 61 /\ et_id MeshConfigurationElement = Id 113
   /\ et_id MeshIDElement = Id 114 /\ et_id MeshPeeringElement = Id 117 /\ et_id VHTCapabilitiesElement = Id 191
   /\ et_id VHTOperationElement = Id 192 /\ et_id VendorSpecificElement = Id 221) /\
  et_id OWETransitionModeElement = VendorSpecific [0x50; 0x6f; 0x9a; 0x1c]%N /\
  (et_id GtkKde = VendorSpecific [0x00; 0x0f; 0xac; 1]%N /\ et_id MacAddressKde = VendorSpecific [0x00; 0x0f; 0xac; 3]%N
   /\ et_id PmkidKde = VendorSpecific [0x00; 0x0f; 0xac; 4]%N /\ et_id NonceKde = VendorSpecific [0x00; 0x0f; 0xac; 6]%N
   /\ et_id LifetimeKde = VendorSpecific [0x00; 0x0f; 0xac; 7]%N).
Proof. exact @type_ids. Qed.
Print Assumptions C12_ids.
Theorem C11_identifier : forall id body, re_type (element id body) = eid_id id /\
  length (enc_element (element id body)) = element_header_length id + length body.
Proof. exact @element_ids. Qed.
Print Assumptions C11_identifier.
Theorem C11_extension_id : forall id x, eid_ext_id id = Some x <-> forall body, element id body = mkRaw 255 (x :: body).
Proof. exact @ext_ids. Qed.
Print Assumptions C11_extension_id.
Theorem C11_is_extension : forall id, eid_is_ext id = true <-> exists x, forall body, element id body = mkRaw 255 (x :: body).
Proof. exact @is_ext_ids. Qed.
Print Assumptions C11_is_extension.
Theorem C11_vendor_prefix : forall id p, p <> [] -> (eid_vendor_prefix id = Some p <-> forall body, element id body = mkRaw 221 (p ++ body)).
Proof. exact @vendor_ids. Qed.
Print Assumptions C11_vendor_prefix.
Theorem C11_element : forall (cfg : Cfg) e id body, writes_element e id body -> wf_id id -> fits (element id body) ->
  Writes (wr_wrapped e) (enc_element (element id body)) /\ wrapped_measure e = length (enc_element (element id body)).
Proof. exact @ElementsFacts.wr_wrapped_W. Qed.
Print Assumptions C11_element.
Theorem C11_raw_extension : forall (cfg : Cfg) x s, (x < 256)%N ->
  Writes (wr_raw_ext (mkRawExt x s)) (x :: s) /\ raw_ext_measure (mkRawExt x s) = length (x :: s) /\
  exists n, rd_raw_ext (x :: s) = Ok (mkRawExt x s, n).
Proof. exact @raw_ext_round_trip. Qed.
Print Assumptions C11_raw_extension.
(** extension elements with any payload that is written and read correctly, and that does not make the reader panic *)
Theorem C11_typed_extension : forall (cfg : Cfg) (A : Type) (w : writer) (r : reader A) x s v, (x < 256)%N ->
  Writes w s -> ReadsAll r s v -> end_ok s ->
  Writes (wr_typed_ext x w) (x :: s) /\ typed_ext_measure (length s) = length (x :: s) /\
  ReadsAll (rd_typed_ext r) (x :: s) (x, v).
Proof. exact @typed_ext_round_trip. Qed.
Print Assumptions C11_typed_extension.
Theorem C11_typed_extension_no_panic : forall (cfg : Cfg) (A : Type) (r : reader A), NoPanic r -> NoPanic (rd_typed_ext r).
Proof. exact @typed_ext_panic. Qed.
Print Assumptions C11_typed_extension_no_panic.
Example C11_typed_extension_ex : forall (cfg : Cfg), rd_typed_ext (rd_le 2) [35; 1; 2; 9]%N = Ok ((35, 0x0201)%N, 3).
Proof. intros cfg. destruct cfg as [[] [] []]; vm_compute; reflexivity. Qed.
(** the size reported when reading is not what was read *)
Theorem C11_raw_extension_size_refuted : forall (cfg : Cfg), exists from x n, rd_raw_ext from = Ok (x, n) /\ rx_slice x <> [] /\ n < length from.
Proof. exact @raw_ext_size. Qed.
Print Assumptions C11_raw_extension_size_refuted.
Theorem C12_vendor_payload : forall payload prefix rest, get_payload_if_prefix_matches payload prefix = Some rest <-> payload = prefix ++ rest.
Proof. exact @vendor_prefix. Qed.
Print Assumptions C12_vendor_payload.
Theorem C13_macro : forall s, ssid_macro s = match ssid_new s with Some x => Ok x | None => Panic end.
Proof. exact @ssid_macro_spec. Qed.
Print Assumptions C13_macro.
Theorem C14_macros : forall l,
  supported_rates_macro l = match supported_rates_new l with Some x => Ok x | None => Panic end /\
  extended_supported_rates_macro l = match extended_supported_rates_new l with Some x => Ok x | None => Panic end.
Proof. exact @rates_macro_spec. Qed.
Print Assumptions C14_macros.
(** [rate!] with a multiple of one half below 64: the floating point computation is exact *)
Theorem C14_rate_macro : forall (cfg : Cfg) k b, (k < 128)%N -> rate_macro (half k) b = Ok (k + (if b then 128 else 0))%N.
Proof. exact @rate_macro_halves. Qed.
Print Assumptions C14_rate_macro.
(** and with any other number below 64: in units of one half, rounded down. [bounded]: a finite [f32], [m * 2 ^ e]. *)
Theorem C14_rate_macro_all : forall (cfg : Cfg) m e b, bounded 24 128 m e = true -> (e < 0)%Z -> (N.pos m < 128 * 2 ^ Z.to_N (- (e + 1)))%N ->
  rate_macro (S754_finite false m e) b = Ok (N.pos m / 2 ^ Z.to_N (- (e + 1)) + (if b then 128 else 0))%N.
Proof. exact @rate_macro_all. Qed.
Print Assumptions C14_rate_macro_all.
(** 63.999996, the largest number below 64 *)
Example C14_rate_macro_all_ex : bounded 24 128 16777215 (-18) = true /\ (16777215 < 128 * 2 ^ 17)%N /\ (16777215 / 2 ^ 17 = 127)%N.
Proof. repeat split. Qed.
(** no number, zero or a negative number: the rate 0; infinity: a panic or some rate *)
Theorem C14_rate_macro_special : forall (cfg : Cfg) (b : bool), let bit := (if b then 128 else 0)%N in
  rate_macro S754_nan b = Ok bit /\ (forall s, rate_macro (S754_zero s) b = Ok bit) /\ rate_macro (S754_infinity true) b = Ok bit /\
  (forall m e, rate_macro (S754_finite true m e) b = Ok bit) /\
  rate_macro (S754_infinity false) b = (if overflow_checks then Panic else Ok (95 + bit)%N).
Proof. exact @rate_macro_special. Qed.
Print Assumptions C14_rate_macro_special.
Example C14_rate_macro_ex : half 11 = S754_finite false 11534336 (-21) (* 5.5 *).
Proof. reflexivity. Qed.
(** SPP A-MSDU configuration: written as the standard has it (in contrast to management frame protection) ... *)
Theorem C18_spp_written : forall x caps, x <> Of_Invalid ->
  let caps' := with_spp_ampdu_config x caps in
  sppc caps' = of_is_capable x /\ sppr caps' = of_is_required x /\
  forall k, (k <> 10 -> k <> 11 -> N.testbit caps' k = N.testbit caps k)%N.
Proof. exact @spp_written. Qed.
Print Assumptions C18_spp_written.
(** ... and read so, unless it is required *)
Theorem C18_spp_read_partial : forall caps, sppr caps = false ->
  of_is_capable (spp_ampdu_config caps) = sppc caps /\ of_is_required (spp_ampdu_config caps) = false.
Proof. exact @spp_read. Qed.
Print Assumptions C18_spp_read_partial.
Theorem C18_spp_read_refuted : exists x caps, x <> Of_Invalid /\ caps = with_spp_ampdu_config x 0 /\ sppr caps = true /\ sppc caps = true /\
  spp_ampdu_config caps <> x /\ of_is_required (spp_ampdu_config caps) = false.
Proof. exact @spp_misread. Qed.
Print Assumptions C18_spp_read_refuted.
(** All four values of the two bits, and what comes back of each setting. *)
Theorem C18_spp_exact : forall caps x,
  spp_ampdu_config caps = match sppc caps, sppr caps with
    | false, false => Of_Disabled | true, false => Of_Capable | false, true => Of_Required | true, true => Of_Invalid end /\
  spp_ampdu_config (with_spp_ampdu_config x caps) = match x with Of_Required => Of_Invalid | Of_Invalid => Of_Required | _ => x end.
Proof. exact (fun caps x => conj (spp_table caps) (spp_back x caps)). Qed.
Print Assumptions C18_spp_exact.
(** the length of received subframes *)
Theorem C33_received_length : forall l, Forall ok_sub l -> amsdu_length l = list_sum (map (fun s => length (enc_sub s)) l).
Proof. exact @amsdu_lengths. Qed.
Print Assumptions C33_received_length.
Example C33_received_length_ex : Forall ok_sub [mkSub (repeat 1 6) (repeat 2 6) [8; 0; 9]; mkSub (repeat 3 6) (repeat 4 6) []]%N.
Proof. repeat constructor. Qed.
(** the payload inside, protected or not *)
Theorem C35_payload : forall (cfg : Cfg) h p mic body, wf_bytes p -> end_ok body ->
  (N.testbit (dh_flags h) 6 = false /\ body = p) \/
  (N.testbit (dh_flags h) 6 = true /\ exists m hdr tag, mic = Some m /\ encapsulated m p hdr body tag) ->
  exists w, potentially_wrapped_payload (h, Some p) mic = Ok (Some w) /\
    wrapped_payload w = if is_amsdu h then Pl_AMSDU (Some body) else Pl_Single body.
Proof. exact @inner_payload. Qed.
Print Assumptions C35_payload.
