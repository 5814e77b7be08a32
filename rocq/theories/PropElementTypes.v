(** C13 to C16, C22, C23, C46, C47: the element types except RSN and TIM. *)
From Verif Require Import Base SpecBase BaseFacts Bits Layouts Enums Utf8 SpecUtf8 Utf8Facts Elements SpecElements ElementsFacts
  ElementTypes SpecElementTypes ElementTypesFacts ElementTypesFacts2 ElementTypesFacts3 ElementTypesFacts4 ElementTypesFacts5.

(** ** C13: SSID and mesh ID *)
Theorem C13_ids : forall (cfg : Cfg), et_id SSIDElement = Id 0 /\ et_id MeshIDElement = Id 114.
Proof. exact (fun _ => conj eq_refl eq_refl). Qed.
Print Assumptions C13_ids.
Theorem C13_round_trip : forall (cfg : Cfg) t, t = SSIDElement \/ t = MeshIDElement -> RoundTrip t ok_ssid (fun s => s).
Proof. exact @ssid_round_trip. Qed.
Print Assumptions C13_round_trip.
(** the constructors accept a string exactly if it has at most 32 bytes *)
Theorem C13_new : forall s x, ssid_new s = Some x <-> x = s /\ length s <= 32.
Proof. exact ssid_new_spec. Qed.
Print Assumptions C13_new.
(** the parser accepts a body exactly if it is at most 32 bytes of UTF-8, and never panics *)
Theorem C13_read : forall bs x n,
  rd_ssid bs = Ok (x, n) <-> x = bs /\ n = length bs /\ length bs <= 32 /\ is_utf8 bs.
Proof. exact rd_ssid_spec. Qed.
Print Assumptions C13_read.
Theorem C13_no_panic : NoPanic rd_ssid.
Proof. exact rd_ssid_NP. Qed.
Print Assumptions C13_no_panic.
Example C13_ex : ok_ssid [0xc3; 0xa9; 0x21]%N /\ ~ is_utf8 [0xc3; 0x21]%N /\ ~ is_utf8 [0xed; 0xa0; 0x80]%N.
Proof.
  split; [split; [repeat constructor; cbn; lia|split; [cbn; lia|apply utf8_spec; reflexivity]]|].
  split; intros H; apply utf8_spec in H; discriminate.
Qed.

(** ** C14: rates *)
Theorem C14_ids : forall (cfg : Cfg), et_id SupportedRatesElement = Id 1 /\ et_id ExtendedSupportedRatesElement = Id 50.
Proof. exact (fun _ => conj eq_refl eq_refl). Qed.
Print Assumptions C14_ids.
Theorem C14_supported : forall (cfg : Cfg), RoundTrip SupportedRatesElement (ok_rates 8) (fun l => l).
Proof. exact @supported_rates_round_trip. Qed.
Print Assumptions C14_supported.
Theorem C14_extended : forall (cfg : Cfg), RoundTrip ExtendedSupportedRatesElement (ok_rates 255) (fun l => l).
Proof. exact @extended_rates_round_trip. Qed.
Print Assumptions C14_extended.
(** the iterator of a parsed element yields its bytes in order *)
Theorem C14_iterate : forall bs, rates_collect bs = Ok bs.
Proof. exact @rates_collect_id. Qed.
Print Assumptions C14_iterate.
Theorem C14_new : forall l x,
  (supported_rates_new l = Some x <-> x = l /\ length l <= 8) /\
  (extended_supported_rates_new l = Some x <-> x = l /\ length l <= 251).
Proof. exact (fun l x => conj (supported_rates_new_spec l x) (extended_rates_new_spec l x)). Qed.
Print Assumptions C14_new.
(** every multiple of 500 kbps below 64 Mbps is encoded in the low seven bits, the flag on top *)
Theorem C14_rate : forall (cfg : Cfg) k b, (k < 128)%N -> exists r,
  from_rate_in_kbps (k * 500) b = Ok r /\ r = (k + 128 * N.b2n b)%N /\ rate_in_kbps r = (k * 500)%N /\
  lgetb EncodedRate_layout "is_b" r = b.
Proof. exact @rate_round_trip. Qed.
Print Assumptions C14_rate.
(** every other rate below 64 Mbps is rounded down to one of these *)
Theorem C14_rate_rounded : forall (cfg : Cfg) r b, (r < 64000)%N -> exists x,
  from_rate_in_kbps r b = Ok x /\ (rate_in_kbps x <= r < rate_in_kbps x + 500)%N /\ lgetb EncodedRate_layout "is_b" x = b.
Proof. exact @rate_below. Qed.
Print Assumptions C14_rate_rounded.
Example C14_rate_rounded_ex (cfg : Cfg) : exists x, from_rate_in_kbps 5999 true = Ok x /\ rate_in_kbps x = 5500%N.
Proof. exists 139%N. split; destruct cfg as [[] [] []]; vm_compute; reflexivity. Qed.
Example C14_ex : ok_rates 8 [0x82; 0x84; 0x8b; 0x96; 0x24]%N /\ (108 * 500 = 54000)%N.
Proof. split; [split; [repeat constructor; cbn; lia|cbn; lia]|reflexivity]. Qed.
(** Outside that range the conversion silently gives another rate, or panics in debug builds. *)
Theorem C14_unrepresentable_refuted : forall (cfg : Cfg),
  (exists r, from_rate_in_kbps 128000 false = Ok r /\ rate_in_kbps r = 0%N) /\
  from_rate_in_kbps 64000 false = if overflow_checks then Panic else Ok 0%N.
Proof. exact (fun cfg => conj rate_truncated rate_64000). Qed.
Print Assumptions C14_unrepresentable_refuted.
(** Exactly, for any rate: the number of steps of 500 kbps is taken modulo 256; of that, debug builds refuse what has more than
    seven bits, release builds keep the low seven bits. *)
Theorem C14_rate_exact : forall (cfg : Cfg) r b, let k := (r / 500 mod 256)%N in
  from_rate_in_kbps r b = if (128 <=? k)%N && overflow_checks then Panic else Ok (k mod 128 + 128 * N.b2n b)%N.
Proof. exact @rate_any. Qed.
Print Assumptions C14_rate_exact.
(** More than eight rates (possible through the unchecked constructor) are cut off while writing,
    so the element announces more bytes than it writes. *)
Theorem C14_unchecked_refuted : forall (cfg : Cfg) l, wf_bytes l -> 8 < length l ->
  Writes (et_write SupportedRatesElement l) (firstn 8 l) /\ length (firstn 8 l) < et_measure SupportedRatesElement l.
Proof. exact @supported_rates_long. Qed.
Print Assumptions C14_unchecked_refuted.

(** ** C15: fixed layouts *)
Theorem C15_dsss : forall (cfg : Cfg), FixedLayout DSSSParameterSetElement (Id 3) 1 u8 any_bytes enc_dsss.
Proof. exact @dsss_fixed. Qed.
Print Assumptions C15_dsss.
Theorem C15_ibss : forall (cfg : Cfg), FixedLayout IBSSParameterSetElement (Id 6) 2 u16 any_bytes enc_ibss.
Proof. exact @ibss_fixed. Qed.
Print Assumptions C15_ibss.
Theorem C15_bss_load : forall (cfg : Cfg), FixedLayout BSSLoadElement (Id 11) 5 ok_bss_load any_bytes enc_bss_load.
Proof. exact @bss_load_fixed. Qed.
Print Assumptions C15_bss_load.
Theorem C15_ht_capabilities : forall (cfg : Cfg), FixedLayout HTCapabilitiesElement (Id 45) 26 ok_ht_cap canon_ht_cap enc_ht_cap.
Proof. exact @ht_cap_fixed. Qed.
Print Assumptions C15_ht_capabilities.
Theorem C15_vht_capabilities : forall (cfg : Cfg), FixedLayout VHTCapabilitiesElement (Id 191) 12 ok_vht_cap any_bytes enc_vht_cap.
Proof. exact @vht_cap_fixed. Qed.
Print Assumptions C15_vht_capabilities.
Theorem C15_vht_operation : forall (cfg : Cfg), FixedLayout VHTOperationElement (Id 192) 5 ok_vht_op any_bytes enc_vht_op.
Proof. exact @vht_op_fixed. Qed.
Print Assumptions C15_vht_operation.
Theorem C15_mesh_configuration : forall (cfg : Cfg), FixedLayout MeshConfigurationElement (Id 113) 7 ok_mesh_conf any_bytes enc_mesh_conf.
Proof. exact @mesh_conf_fixed. Qed.
Print Assumptions C15_mesh_configuration.
Example C15_ex :
  ok_bss_load (mkBSSLoad 3 127 31250) /\ enc_bss_load (mkBSSLoad 3 127 31250) = [3; 0; 127; 18; 122]%N /\
  ok_ht_cap (mkHTCap 0x19ef 0x17 (mkMCS (255 :: 255 :: repeat 0 8)%N 300) 0 0 0) /\
  ok_vht_op (mkVHTOp (channel_width_from_bits 1) 42 0 0xfffc).
Proof.
  split; [repeat split|]. split; [reflexivity|]. split.
  - repeat split; cbn; try lia. repeat constructor; cbn; lia.
  - repeat split; cbn; try lia.
Qed.

(** ** C16: HT operation *)
(** The full claim is false: an HT operation element does not survive writing and reading. *)
Theorem C16_refuted : forall (cfg : Cfg), exists x, ok_ht_op x /\ forall buf, 22 + slack <= length buf -> exists buf' y,
  wr_ht_op x buf = Ok (buf', 22) /\ rd_ht_op buf' = Ok (y, 22) /\ y <> x.
Proof. exact @ht_op_refuted. Qed.
Print Assumptions C16_refuted.
(** What is true: primary channel and MCS set survive, of the information field only the bits 24
    to 39 reach the air, at the wrong places; 22 bytes are announced and written. *)
Theorem C16_partial : forall (cfg : Cfg) x, ok_ht_op x -> forall buf, 22 + slack <= length buf -> exists buf',
  et_measure HTOperationElement x = 22 /\ wr_ht_op x buf = Ok (buf', 22) /\
  rd_ht_op buf' = Ok (mkHTOp (ho_channel x) (ho_info x / 2 ^ 32 * 2 ^ 24 + ho_info x / 2 ^ 24 mod 256 * 2 ^ 32)%N (ho_mcs x), 22).
Proof. exact (fun cfg x O buf L => match ht_op_reread x O buf L with ex_intro _ b (conj W R) => ex_intro _ b (conj eq_refl (conj W R)) end). Qed.
Print Assumptions C16_partial.
(** Elements in the format of the standard are read correctly. *)
Theorem C16_read_partial : forall (cfg : Cfg) x, ok_ht_op x -> Reads rd_ht_op (enc_ht_op x) x.
Proof. exact @ht_op_reads. Qed.
Print Assumptions C16_read_partial.
(** channel 6 with the information 0x0403020105: written and read it is 0x0304000000 *)
Example C16_ex (cfg : Cfg) : let x := mkHTOp 6 0x0403020105 (mkMCS [255; 0; 0; 0; 0; 0; 0; 0; 0; 0] 1)%N in ok_ht_op x /\
  rd_ht_op (enc_ht_op x) = Ok (x, 22) /\ exists buf, wr_ht_op x (repeat 0%N 23) = Ok (buf, 22) /\
  rd_ht_op buf = Ok (mkHTOp 6 0x0304000000 (mkMCS [255; 0; 0; 0; 0; 0; 0; 0; 0; 0] 1)%N, 22).
Proof.
  intros x. split; [repeat split; repeat constructor; reflexivity|]. split; [destruct cfg as [[] [] []]; vm_compute; reflexivity|].
  eexists. split; destruct cfg as [[] [] []]; vm_compute; reflexivity.
Qed.
(** Input two bytes too short is accepted with a size beyond its end. *)
Theorem C16_short_refuted : forall (cfg : Cfg), rd_ht_op (repeat 0%N 20) = Ok (mkHTOp 0 0 (mkMCS (repeat 0%N 10) 0), 22).
Proof. exact @ht_op_short. Qed.
Print Assumptions C16_short_refuted.

(** Exactly, for any received bytes: 20 are enough and are all that is looked at, but 22 are reported. *)
Theorem C16_received : forall (cfg : Cfg) bs,
  if 20 <=? length bs
  then rd_ht_op bs = Ok (mkHTOp (hd 0%N bs) (le_val (firstn 5 (skipn 1 bs)))
         (mkMCS (firstn 10 (skipn 6 bs)) (le_val (firstn 4 (skipn 16 bs)))), 22)
  else exists e, rd_ht_op bs = Err e.
Proof. exact @rd_ht_op_any. Qed.
Print Assumptions C16_received.

(** ** C22: OWE transition mode and key data encapsulations *)
Theorem C22_owe : forall (cfg : Cfg), RoundTrip OWETransitionModeElement owe_ok (fun x => x).
Proof. exact @owe_round_trip. Qed.
Print Assumptions C22_owe.
Theorem C22_owe_format : forall (cfg : Cfg) x, ok_owe is_utf8 x -> Writes (wr_owe x) (enc_owe x).
Proof. exact @wr_owe_W. Qed.
Print Assumptions C22_owe_format.
Example C22_owe_ex (cfg : Cfg) : owe_ok (mkOWE [2; 0; 0; 0; 0; 1]%N [79; 87; 69]%N (Some (81, 6)%N)).
Proof.
  split; [|right; left; discriminate]. split; [split; [reflexivity|repeat constructor; cbn; lia]|].
  split; [repeat constructor; cbn; lia|]. split; [cbn; lia|]. split; [apply utf8_spec; reflexivity|split; reflexivity].
Qed.
Theorem C22_mac_address : forall (cfg : Cfg),
  FixedLayout MacAddressKde (VendorSpecific [0x00; 0x0f; 0xac; 3]%N) 6 (byte_array 6) any_bytes (fun x => x).
Proof. exact (fun cfg => @kde_bytes_fixed cfg 3 6 (Nat.neq_succ_0 5)). Qed.
Print Assumptions C22_mac_address.
Theorem C22_pmkid : forall (cfg : Cfg),
  FixedLayout PmkidKde (VendorSpecific [0x00; 0x0f; 0xac; 4]%N) 16 (byte_array 16) any_bytes (fun x => x).
Proof. exact (fun cfg => @kde_bytes_fixed cfg 4 16 (Nat.neq_succ_0 15)). Qed.
Print Assumptions C22_pmkid.
Theorem C22_nonce : forall (cfg : Cfg),
  FixedLayout NonceKde (VendorSpecific [0x00; 0x0f; 0xac; 6]%N) 32 (byte_array 32) any_bytes (fun x => x).
Proof. exact (fun cfg => @kde_bytes_fixed cfg 6 32 (Nat.neq_succ_0 31)). Qed.
Print Assumptions C22_nonce.
Theorem C22_lifetime : forall (cfg : Cfg),
  FixedLayout LifetimeKde (VendorSpecific [0x00; 0x0f; 0xac; 7]%N) 4 u32 any_bytes (be_bytes 4).
Proof. exact @lifetime_fixed. Qed.
Print Assumptions C22_lifetime.
Theorem C22_gtk : forall (cfg : Cfg),
  et_id GtkKde = VendorSpecific [0x00; 0x0f; 0xac; 1]%N /\ RoundTrip GtkKde ok_gtk (fun x => x) /\ NoPanic (et_read GtkKde).
Proof. exact (fun cfg => conj eq_refl (conj gtk_round_trip rd_gtk_NP)). Qed.
Print Assumptions C22_gtk.
Example C22_gtk_ex : ok_gtk (mkGtk 5 (repeat 171%N 16)).
Proof. split; [reflexivity|repeat constructor; cbn; lia]. Qed.

(** ** C23: mesh peering management *)
(** Every variant can be built, has the layout of the standard behind protocol and local link ID,
    and is interpreted as what it was built as. *)
Theorem C23_open : forall (cfg : Cfg) p l pmk, ok_pmk pmk -> exists x,
  peering_new_open p l pmk = Ok x /\ peering_is p l (enc_open pmk) x /\
  parse_as_open x = Ok (Some (mkParsed p l None None pmk)) /\ parse_as_confirm x = Ok None /\ parse_as_close x = Ok None.
Proof. exact @open_variant. Qed.
Print Assumptions C23_open.
Theorem C23_confirm : forall (cfg : Cfg) p l peer pmk, u16 peer -> ok_pmk pmk -> exists x,
  peering_new_confirm p l peer pmk = Ok x /\ peering_is p l (enc_confirm peer pmk) x /\
  parse_as_confirm x = Ok (Some (mkParsed p l (Some peer) None pmk)) /\ parse_as_open x = Ok None.
Proof. exact @confirm_variant. Qed.
Print Assumptions C23_confirm.
Theorem C23_close : forall (cfg : Cfg) p l peer r pmk, ok_link peer -> ok_reason r -> ok_pmk pmk -> exists x,
  peering_new_close p l peer r pmk = Ok x /\ peering_is p l (enc_close peer (reason_into_bits r) pmk) x /\
  parse_as_close x = Ok (Some (mkParsed p l peer (Some r) pmk)) /\ parse_as_open x = Ok None /\
  (peer <> None -> parse_as_confirm x = Ok None).
Proof. exact @close_variant. Qed.
Print Assumptions C23_close.
(** written and read back it is unchanged (the reader reports only the four fixed bytes) *)
Theorem C23_round_trip : forall (cfg : Cfg) p l rest x, ok_proto p -> u16 l -> length rest <= 20 -> peering_is p l rest x ->
  Writes (wr_peering x) (enc_peering p l rest) /\ et_measure MeshPeeringElement x = length (enc_peering p l rest) /\
  rd_peering (enc_peering p l rest) = Ok (x, 4).
Proof. exact @peering_written_read. Qed.
Print Assumptions C23_round_trip.
Example C23_ex : forall (cfg : Cfg), ok_pmk (Some (repeat 7%N 16)) /\ ok_proto (mesh_peering_proto_from_bits 1) /\ u16 65535 /\
  ok_reason (reason_from_bits 52) /\ length (enc_close (Some 9%N) 52 (Some (repeat 7%N 16))) = 20.
Proof.
  intros cfg. split; [split; [reflexivity|repeat constructor; cbn; lia]|]. split; [split; reflexivity|]. split; [reflexivity|].
  split; [split; reflexivity|]. unfold enc_close, int16. cbn. destruct native_le; reflexivity.
Qed.
(** The full robustness claim is false: elements of more than 24 bytes make the parser panic; all
    shorter ones are handled. *)
Theorem C23_robust_partial : forall (cfg : Cfg) bs, wf_bytes bs ->
  (length bs < 4 -> exists e, rd_peering bs = Err e) /\
  (4 <= length bs <= 24 -> exists p l rest x, ok_proto p /\ u16 l /\ peering_is p l rest x /\ bs = enc_peering p l rest /\ rd_peering bs = Ok (x, 4)) /\
  (24 < length bs -> rd_peering bs = Panic).
Proof. exact @rd_peering_cases. Qed.
Print Assumptions C23_robust_partial.
Theorem C23_robust_refuted : forall (cfg : Cfg), exists bs, wf_bytes bs /\ get_first_element MeshPeeringElement bs = Panic.
Proof. exact @peering_lookup_panic. Qed.
Print Assumptions C23_robust_refuted.
(** On big-endian targets the fields are not in the byte order of the standard. *)
Theorem C23_byte_order_refuted : forall (cfg : Cfg), native_le = false -> int16 1 <> le_bytes 2 1.
Proof. exact @int16_big_endian. Qed.
Print Assumptions C23_byte_order_refuted.

(** ** C46: VHT MCS map *)
(** Queries and iteration follow the layout of the standard for all maps. *)
Theorem C46_query : forall m n, 1 <= n <= 8 ->
  vht_mcs_support_for_nss m (N.of_nat n) = Some (vht_mcs_from_bits (spec_vht_mcs m n)).
Proof. exact vht_query. Qed.
Print Assumptions C46_query.
Theorem C46_query_none : forall m n, ~ (1 <= n <= 8)%N -> vht_mcs_support_for_nss m n = None.
Proof. exact vht_for_nss_none. Qed.
Print Assumptions C46_query_none.
Theorem C46_iter : forall m, vht_mcs_support_iter m = map (fun n => vht_mcs_from_bits (spec_vht_mcs m n)) (seq 1 8).
Proof. exact vht_iter. Qed.
Print Assumptions C46_iter.
(** Lists of at most four entries come back. *)
Theorem C46_build_partial : forall (cfg : Cfg) l, length l <= 4 -> Forall vht_canonical l -> exists m,
  from_vht_mcs_iter l = Ok m /\ (m < 65536)%N /\
  forall i x, nth_error l i = Some x -> vht_mcs_support_for_nss m (N.of_nat (S i)) = Some x.
Proof. exact @vht_from_iter_ok. Qed.
Print Assumptions C46_build_partial.
Example C46_ex : Forall vht_canonical [Vm_ZeroToNine; Vm_ZeroToNine; Vm_NotSupported].
Proof. repeat (constructor; [split; reflexivity|]). constructor. Qed.
(** The full claim is false: longer lists panic in debug builds and give a wrong map in release
    builds, and streams that are not listed are reported as supporting MCS 0 to 7. *)
Theorem C46_long_refuted : forall (cfg : Cfg),
  (overflow_checks = true -> forall l, 5 <= length l -> from_vht_mcs_iter l = Panic) /\
  (overflow_checks = false -> exists l m, length l = 5 /\ Forall vht_canonical l /\ from_vht_mcs_iter l = Ok m /\
    exists i x y, nth_error l i = Some x /\ vht_mcs_support_for_nss m (N.of_nat (S i)) = Some y /\ x <> y).
Proof. exact (fun cfg => conj (fun O l => @vht_from_iter_panic cfg l O) (@vht_wrap cfg)). Qed.
Print Assumptions C46_long_refuted.
(** Exactly what release builds make of a list of any length: the entry of stream [n + 4] is mixed into that of stream [n]; streams 5 to 8
    get the value zero (MCS 0 to 7). *)
Theorem C46_release_exact : forall (cfg : Cfg) l, overflow_checks = false -> Forall vht_canonical l -> exists m, from_vht_mcs_iter l = Ok m /\
  forall n, 1 <= n <= 8 -> spec_vht_mcs m n = if n <=? 4 then N.lor (entry_bits l (n - 1)) (entry_bits l (n + 3)) else 0%N.
Proof. exact @vht_release_exact. Qed.
Print Assumptions C46_release_exact.
Example C46_release_ex : entry_bits [Vm_ZeroToNine; Vm_ZeroToSeven; Vm_NotSupported; Vm_NotSupported; Vm_ZeroToEight] 4 = 1%N /\
  Forall vht_canonical [Vm_ZeroToNine; Vm_ZeroToSeven; Vm_NotSupported; Vm_NotSupported; Vm_ZeroToEight].
Proof. split; [reflexivity|]. repeat (constructor; [split; reflexivity|]). constructor. Qed.
Theorem C46_unlisted_refuted : forall (cfg : Cfg), exists m, from_vht_mcs_iter [Vm_ZeroToNine] = Ok m /\
  vht_mcs_support_for_nss m 2 = Some Vm_ZeroToSeven.
Proof. exact @vht_unlisted. Qed.
Print Assumptions C46_unlisted_refuted.

(** ** C47: HT MCS set *)
(** reading the mask: index [k] of the iterator is bit [k] of the mask *)
Theorem C47_indices : forall bs f k, length (supported_rx_mcs_indices (mkMCS bs f)) = 8 * length bs /\
  nth k (supported_rx_mcs_indices (mkMCS bs f)) false = rx_bit bs k.
Proof. exact (fun bs f k => conj (rx_indices_length bs f) (rx_indices_nth bs f k)). Qed.
Print Assumptions C47_indices.
(** the listing form accepts exactly the lists of different indices up to 76 and sets these *)
Theorem C47_listing : forall l,
  (Forall (fun i => i < 77) l -> NoDup l -> exists r,
     supported_rx_mcs_set_listing l = Ok r /\ length r = 10 /\ forall k, rx_bit r k = true <-> In k l) /\
  (~ (Forall (fun i => i < 77) l /\ NoDup l) -> supported_rx_mcs_set_listing l = Panic).
Proof. exact (fun l => conj (listing_ok l) (listing_panic l)). Qed.
Print Assumptions C47_listing.
Example C47_listing_ex : Forall (fun i => i < 77) [0; 1; 2; 7; 32; 76] /\ NoDup [0; 1; 2; 7; 32; 76].
Proof. split; [repeat constructor|repeat constructor; cbn; lia]. Qed.
Theorem C47_range : forall s e, e < 77 -> exists r,
  supported_rx_mcs_set_range s e = Ok r /\ length r = 10 /\ forall k, rx_bit r k = true <-> s <= k < e.
Proof. exact range_ok. Qed.
Print Assumptions C47_range.
(** The function form drops index 76. *)
Theorem C47_generate_partial : forall l k,
  length (generate_supported_rx_mcs_set l) = 10 /\ rx_bit (generate_supported_rx_mcs_set l) k = (k <? 76) && nth k l false.
Proof. exact (fun l k => conj (generate_length l) (generate_rx_bit l k)). Qed.
Print Assumptions C47_generate_partial.
Theorem C47_generate_refuted : exists l, length l = 77 /\ nth 76 l false = true /\ rx_bit (generate_supported_rx_mcs_set l) 76 = false.
Proof. exact (ex_intro _ (repeat true 77) (conj eq_refl (conj eq_refl eq_refl))). Qed.
Print Assumptions C47_generate_refuted.
(** None of the three interpretations of the transmit flags is the one of the standard. *)
Theorem C47_flags_refuted :
  (exists f, (f < 2 ^ 32)%N /\ is_tx_mcs_undefined f <> spec_tx_undefined f) /\
  (exists f, (f < 2 ^ 32)%N /\ is_tx_rx_mcs_defined_equal f <> spec_tx_equal f) /\
  (exists f, (f < 2 ^ 32)%N /\ may_tx_mcs_set_differ_from_rx f <> spec_tx_may_differ f).
Proof. exact (conj flags_undefined_wrong (conj flags_equal_wrong flags_differ_wrong)). Qed.
Print Assumptions C47_flags_refuted.
(** What they answer for every value of the flags. *)
Theorem C47_flags_partial : forall f,
  is_tx_mcs_undefined f = negb (spec_tx_mcs_set_defined f && spec_tx_rx_not_equal f && (spec_tx_streams f =? 0)%N && spec_tx_unequal_modulation f) /\
  is_tx_rx_mcs_defined_equal f = negb (spec_tx_rx_not_equal f) && (spec_tx_streams f =? 0)%N && negb (spec_tx_unequal_modulation f) /\
  may_tx_mcs_set_differ_from_rx f =
    spec_tx_rx_not_equal f && negb (spec_tx_mcs_set_defined f && (spec_tx_streams f =? 0)%N && spec_tx_unequal_modulation f).
Proof. exact flags_exact. Qed.
Print Assumptions C47_flags_partial.
