(** Counterexamples and combinations for the element properties. *)
From Verif Require Import Base SpecBase BaseFacts Bits Layouts Enums Utf8 SpecUtf8 Utf8Facts Elements SpecElements ElementsFacts
  ElementTypes SpecElementTypes ElementTypesFacts ElementTypesFacts2 ElementTypesFacts3.

Lemma is_element_disjoint id id' raw : is_element id raw -> is_element id' raw ->
  id = id' \/ (exists p q, id = VendorSpecific p /\ id' = VendorSpecific q /\
                 ((exists r, p = q ++ r) \/ exists r, q = p ++ r))
  \/ (id = Id 221 \/ id = Id 255 \/ id' = Id 221 \/ id' = Id 255)%N.
Proof.
  intros [b ->] [b' E]. unfold element in E. destruct id as [i|x|p], id' as [i'|x'|p']; cbn [id_prefix app] in E; injection E; intros; subst; try discriminate; auto 8.
  right; left. exists p, p'. split; [reflexivity|]. split; [reflexivity|].
  match goal with H : _ ++ _ = _ ++ _ |- _ => apply app_eq_app in H; destruct H as (l & [[-> _]|[-> _]]) end; eauto.
Qed.
Section Facts.
Context {cfg : Cfg}.
Lemma strict_end_hides : strict_end = true -> exists es, Forall fits es /\ es <> [] /\ raw_elements (enc_elements es) = Ok [].
Proof.
  intros S. exists [mkRaw 0 []]. split; [repeat constructor; cbn; lia|]. split; [discriminate|].
  unfold raw_elements, iter_all, enc_elements. cbn. unfold iter_next, rd_raw_tlv, gread, end_bad. rewrite S. reflexivity.
Qed.
Lemma element_types_no_panic :
  NoPanic (et_read SSIDElement) /\ NoPanic (et_read MeshIDElement) /\ NoPanic (et_read SupportedRatesElement) /\
  NoPanic (et_read ExtendedSupportedRatesElement) /\ NoPanic (et_read DSSSParameterSetElement) /\
  NoPanic (et_read IBSSParameterSetElement) /\ NoPanic (et_read BSSLoadElement) /\ NoPanic (et_read HTCapabilitiesElement) /\
  NoPanic (et_read HTOperationElement) /\ NoPanic (et_read VHTCapabilitiesElement) /\ NoPanic (et_read VHTOperationElement) /\
  NoPanic (et_read MeshConfigurationElement) /\ NoPanic (et_read OWETransitionModeElement) /\ NoPanic (et_read GtkKde) /\
  NoPanic (et_read LifetimeKde) /\ NoPanic (et_read MacAddressKde) /\ NoPanic (et_read PmkidKde) /\ NoPanic (et_read NonceKde) /\
  NoPanic (et_read VendorSpecificElement).
Proof.
  repeat split; cbn [et_read SSIDElement MeshIDElement SupportedRatesElement ExtendedSupportedRatesElement HTOperationElement OWETransitionModeElement GtkKde].
  - exact rd_ssid_NP.
  - exact rd_ssid_NP.
  - exact rd_supported_rates_NP.
  - exact rd_extended_rates_NP.
  - exact (fl_no_panic _ _ _ _ _ _ dsss_fixed).
  - exact (fl_no_panic _ _ _ _ _ _ ibss_fixed).
  - exact (fl_no_panic _ _ _ _ _ _ bss_load_fixed).
  - exact (fl_no_panic _ _ _ _ _ _ ht_cap_fixed).
  - exact rd_ht_op_NP.
  - exact (fl_no_panic _ _ _ _ _ _ vht_cap_fixed).
  - exact (fl_no_panic _ _ _ _ _ _ vht_op_fixed).
  - exact (fl_no_panic _ _ _ _ _ _ mesh_conf_fixed).
  - exact rd_owe_NP.
  - exact rd_gtk_NP.
  - exact (fl_no_panic _ _ _ _ _ _ lifetime_fixed).
  - exact (fl_no_panic _ _ _ _ _ _ (kde_bytes_fixed 3 6 ltac:(discriminate))).
  - exact (fl_no_panic _ _ _ _ _ _ (kde_bytes_fixed 4 16 ltac:(discriminate))).
  - exact (fl_no_panic _ _ _ _ _ _ (kde_bytes_fixed 6 32 ltac:(discriminate))).
  - discriminate.
Qed.
Lemma peering_lookup_panic : exists bs, wf_bytes bs /\ get_first_element MeshPeeringElement bs = Panic.
Proof.
  exists (117 :: 25 :: repeat 0 25)%N. split; [repeat constructor; cbn; lia|].
  pose proof (raw_elements_enc [mkRaw 117 (repeat 0 25)]%N [] ltac:(repeat constructor; cbn; lia)
    ltac:(right; right; discriminate) iteration_end_nil) as E.
  unfold get_first_element. change (enc_elements [mkRaw 117 (repeat 0 25)]%N ++ []) with (117 :: 25 :: repeat 0 25)%N in E.
  rewrite E. cbn [rbind find_map_res]. unfold match_and_parse, parse_raw_element. cbn -[pread repeat].
  rewrite pread0 by discriminate.
  destruct (rd_peering_cases (repeat 0 25)%N ltac:(repeat constructor; cbn; lia)) as (_ & _ & P).
  cbn [et_read MeshPeeringElement]. rewrite P by (rewrite repeat_length; lia). reflexivity.
Qed.
Lemma short_vendor_panic : exists raw, parse_raw_element OWETransitionModeElement raw = Panic.
Proof.
  exists (mkRaw 221 [0]%N). unfold parse_raw_element. cbn -[pread]. rewrite pread0 by discriminate. reflexivity.
Qed.
(** ** Rates *)
Lemma rate_truncated : exists r, from_rate_in_kbps 128000 false = Ok r /\ rate_in_kbps r = 0%N.
Proof. exists 0%N. unfold from_rate_in_kbps, lwith. change (lpos EncodedRate_layout "rate") with (Some (0, 7)%N). cbn. now rewrite andb_false_r. Qed.
Lemma rate_64000 : from_rate_in_kbps 64000 false = if overflow_checks then Panic else Ok 0%N.
Proof. unfold from_rate_in_kbps, lwith. change (lpos EncodedRate_layout "rate") with (Some (0, 7)%N). cbn. now destruct overflow_checks. Qed.
(** more than eight rates behind the unchecked constructor: eight are written *)
Lemma supported_rates_long l : wf_bytes l -> 8 < length l ->
  Writes (et_write SupportedRatesElement l) (firstn 8 l) /\ length (firstn 8 l) < et_measure SupportedRatesElement l.
Proof.
  intros W L. split.
  - cbn [et_write SupportedRatesElement]. unfold wr_supported_rates. apply wr_rates_W. now apply wf_firstn.
  - cbn [et_measure SupportedRatesElement]. rewrite firstn_length. lia.
Qed.
(** ** HT operation *)
Lemma ht_op_value v : (v < 2 ^ 40)%N ->
  le_val (firstn 5 (be_bytes 8 v)) = (v / 2 ^ 32 * 2 ^ 24 + v / 2 ^ 24 mod 256 * 2 ^ 32)%N.
Proof. intros H. rewrite ht_op_info_bytes by exact H. cbn [le_val]. change (2 ^ 32)%N with (256 * 256 * 256 * 256)%N. change (2 ^ 24)%N with (256 * 256 * 256)%N. nia. Qed.
Lemma ht_op_reread x : ok_ht_op x -> forall buf, 22 + slack <= length buf -> exists buf',
  wr_ht_op x buf = Ok (buf', 22) /\
  rd_ht_op buf' = Ok (mkHTOp (ho_channel x) (ho_info x / 2 ^ 32 * 2 ^ 24 + ho_info x / 2 ^ 24 mod 256 * 2 ^ 32)%N (ho_mcs x), 22).
Proof.
  intros O buf L. rewrite <- ht_op_value by apply O. now apply ht_op_written_read.
Qed.
Lemma ht_op_refuted : exists x, ok_ht_op x /\ forall buf, 22 + slack <= length buf -> exists buf' y,
  wr_ht_op x buf = Ok (buf', 22) /\ rd_ht_op buf' = Ok (y, 22) /\ y <> x.
Proof.
  exists (mkHTOp 6 5 (mkMCS (repeat 0%N 10) 0)). split.
  - repeat split; cbn; try lia. repeat constructor; cbn; lia.
  - intros buf L. destruct (ht_op_reread (mkHTOp 6 5 (mkMCS (repeat 0%N 10) 0))) with (buf := buf) as (b & W & R); auto.
    + repeat split; cbn; try lia. repeat constructor; cbn; lia.
    + exists b. eexists. split; [exact W|]. split; [exact R|]. intros E. apply (f_equal ho_info) in E. cbn in E. discriminate.
Qed.
(** ** VHT *)
Lemma vht_unlisted : exists m, from_vht_mcs_iter [Vm_ZeroToNine] = Ok m /\
  vht_mcs_support_for_nss m 2 = Some Vm_ZeroToSeven.
Proof. exists 2%N. split; [|reflexivity]. unfold from_vht_mcs_iter. cbn. unfold shl_u8. now destruct overflow_checks. Qed.
Lemma vht_wrap : overflow_checks = false ->
  exists l m, length l = 5 /\ Forall vht_canonical l /\ from_vht_mcs_iter l = Ok m /\ exists i x y, nth_error l i = Some x /\
    vht_mcs_support_for_nss m (N.of_nat (S i)) = Some y /\ x <> y.
Proof.
  intros O. exists [Vm_ZeroToSeven; Vm_ZeroToSeven; Vm_ZeroToSeven; Vm_ZeroToSeven; Vm_NotSupported], 3%N.
  split; [reflexivity|]. split; [repeat (constructor; [split; reflexivity|]); constructor|].
  split; [unfold from_vht_mcs_iter; cbn; unfold shl_u8; rewrite O; reflexivity|].
  exists 0, Vm_ZeroToSeven, Vm_NotSupported. repeat split. discriminate.
Qed.
(** ** Mesh peering *)
Lemma open_variant p l pmk : ok_pmk pmk -> exists x,
  peering_new_open p l pmk = Ok x /\ peering_is p l (enc_open pmk) x /\
  parse_as_open x = Ok (Some (mkParsed p l None None pmk)) /\ parse_as_confirm x = Ok None /\ parse_as_close x = Ok None.
Proof. intros O. destruct (new_open_is p l pmk O) as (x & E & I). exists x. split; [exact E|]. split; [exact I|]. now apply (parse_open p l pmk). Qed.
Lemma confirm_variant p l peer pmk : u16 peer -> ok_pmk pmk -> exists x,
  peering_new_confirm p l peer pmk = Ok x /\ peering_is p l (enc_confirm peer pmk) x /\
  parse_as_confirm x = Ok (Some (mkParsed p l (Some peer) None pmk)) /\ parse_as_open x = Ok None.
Proof. intros U O. destruct (new_confirm_is p l peer pmk O) as (x & E & I). exists x. split; [exact E|]. split; [exact I|]. now apply (parse_confirm p l peer pmk). Qed.
Lemma close_variant p l peer r pmk : ok_link peer -> ok_reason r -> ok_pmk pmk -> exists x,
  peering_new_close p l peer r pmk = Ok x /\ peering_is p l (enc_close peer (reason_into_bits r) pmk) x /\
  parse_as_close x = Ok (Some (mkParsed p l peer (Some r) pmk)) /\ parse_as_open x = Ok None /\
  (peer <> None -> parse_as_confirm x = Ok None).
Proof. intros L R O. destruct (new_close_is p l peer r pmk O) as (x & E & I). exists x. split; [exact E|]. split; [exact I|]. now apply (parse_close p l peer r pmk). Qed.
Lemma peering_written_read p l rest x : ok_proto p -> u16 l -> length rest <= 20 -> peering_is p l rest x ->
  Writes (wr_peering x) (enc_peering p l rest) /\ et_measure MeshPeeringElement x = length (enc_peering p l rest) /\
  rd_peering (enc_peering p l rest) = Ok (x, 4).
Proof.
  intros P U L I. split; [now apply wr_peering_W|]. split; [|now apply rd_peering_spec].
  rewrite I. unfold enc_peering. rewrite !app_length, !int16_length. reflexivity.
Qed.
Lemma int16_big_endian : native_le = false -> int16 1 <> le_bytes 2 1.
Proof. intros E. unfold int16. rewrite E. discriminate. Qed.
End Facts.
Lemma vht_query m n : 1 <= n <= 8 ->
  vht_mcs_support_for_nss m (N.of_nat n) = Some (vht_mcs_from_bits (spec_vht_mcs m n)).
Proof. intros H. destruct (vht_for_nss m n H) as (x & E & ->). exact E. Qed.
(** ** HT transmit flags *)
Lemma flags_undefined_wrong : exists f, (f < 2 ^ 32)%N /\ is_tx_mcs_undefined f <> spec_tx_undefined f.
Proof. exists (2 ^ 16)%N. split; [reflexivity|]. vm_compute. discriminate. Qed.
Lemma flags_equal_wrong : exists f, (f < 2 ^ 32)%N /\ is_tx_rx_mcs_defined_equal f <> spec_tx_equal f.
Proof. exists 0%N. split; [reflexivity|]. vm_compute. discriminate. Qed.
Lemma flags_differ_wrong : exists f, (f < 2 ^ 32)%N /\ may_tx_mcs_set_differ_from_rx f <> spec_tx_may_differ f.
Proof. exists (2 ^ 17)%N. split; [reflexivity|]. vm_compute. discriminate. Qed.
(** what they compute: "undefined" is the negation of a combination that is not listed in the standard *)
Lemma flags_exact f :
  is_tx_mcs_undefined f = negb (spec_tx_mcs_set_defined f && spec_tx_rx_not_equal f && (spec_tx_streams f =? 0)%N && spec_tx_unequal_modulation f) /\
  is_tx_rx_mcs_defined_equal f = negb (spec_tx_rx_not_equal f) && (spec_tx_streams f =? 0)%N && negb (spec_tx_unequal_modulation f) /\
  may_tx_mcs_set_differ_from_rx f =
    spec_tx_rx_not_equal f && negb (spec_tx_mcs_set_defined f && (spec_tx_streams f =? 0)%N && spec_tx_unequal_modulation f).
Proof.
  assert (U : is_tx_mcs_undefined f =
    negb (spec_tx_mcs_set_defined f && spec_tx_rx_not_equal f && (spec_tx_streams f =? 0)%N && spec_tx_unequal_modulation f)).
  { unfold is_tx_mcs_undefined. cbn zeta. rewrite ?(BitsFacts.lgetb_bit _ "tx_mcs_set_defined" _ 16%N) by reflexivity; rewrite !(BitsFacts.lgetb_bit _ "tx_rx_mcs_set_not_equal" _ 17%N), !(BitsFacts.lgetb_bit _ "tx_unequal_modulation_supported" _ 20%N) by reflexivity. unfold lget.
    change (lpos SupportedMCSSetFlags_layout "tx_maximum_number_spatial_streams_supported") with (Some (18, 2)%N). cbv beta iota.
    unfold bf_get. rewrite N.land_ones, N.shiftr_div_pow2. reflexivity. }
  unfold is_tx_rx_mcs_defined_equal, may_tx_mcs_set_differ_from_rx. rewrite U. cbn zeta. rewrite ?(BitsFacts.lgetb_bit _ "tx_mcs_set_defined" _ 16%N) by reflexivity; rewrite !(BitsFacts.lgetb_bit _ "tx_rx_mcs_set_not_equal" _ 17%N), !(BitsFacts.lgetb_bit _ "tx_unequal_modulation_supported" _ 20%N) by reflexivity.
  unfold lget.
  change (lpos SupportedMCSSetFlags_layout "tx_maximum_number_spatial_streams_supported") with (Some (18, 2)%N). cbv beta iota.
  unfold bf_get. rewrite N.land_ones, N.shiftr_div_pow2.
  change (f / 2 ^ 18 mod 2 ^ 2)%N with (spec_tx_streams f). change (N.testbit f 17) with (spec_tx_rx_not_equal f).
  change (N.testbit f 20) with (spec_tx_unequal_modulation f).
  split; [reflexivity|].
  destruct (spec_tx_mcs_set_defined f), (spec_tx_rx_not_equal f), (spec_tx_unequal_modulation f), (spec_tx_streams f =? 0)%N; split; reflexivity.
Qed.
Lemma raw_end_measure : exists c, forall (cfg : Cfg), exists bs, Writes (wr_chain c) bs /\ chain_measure c < length bs.
Proof.
  exists (ChainEnd (RawItem (mkRaw 42 [7]%N))). intros cfg. exists [42; 1; 7]%N. split; [|cbn; lia].
  apply (wr_chain_W _ [mkRaw 42 [7]%N]); repeat constructor; cbn; lia.
Qed.
