(** C68: what is written depends on the value alone. *)
From Verif Require Import Base SpecBase BaseFacts Bits Layouts Enums Common Crc Elements SpecElements ElementTypes SpecElementTypes Suites Rsn Tim
  Mgmt SpecMgmt MgmtFacts5 Control Amsdu Data SpecData DataFacts5 CryptoHeader Eapol SpecEapol SpecUniform UniformFacts UniformFacts2.

(** What it means for a caller: no panic; nothing behind the reported size is touched, which is within the buffer; ... *)
Theorem C68_no_panic : forall (cfg : Cfg) w buf, Uniform w -> w buf <> Panic.
Proof. exact @uniform_no_panic. Qed.
Print Assumptions C68_no_panic.
Theorem C68_contained : forall (cfg : Cfg) w buf buf' n, Uniform w -> w buf = Ok (buf', n) ->
  n <= length buf /\ length buf' = length buf /\ skipn n buf' = skipn n buf.
Proof. exact @uniform_contained. Qed.
Print Assumptions C68_contained.
(** ... the same bytes in every buffer, whatever was in it; and a larger buffer never makes it fail. *)
Theorem C68_same : forall (cfg : Cfg) w buf1 buf2 b1 b2 n1 n2, Uniform w -> w buf1 = Ok (b1, n1) -> w buf2 = Ok (b2, n2) ->
  n1 = n2 /\ firstn n1 b1 = firstn n2 b2.
Proof. exact @uniform_same. Qed.
Print Assumptions C68_same.
Theorem C68_larger : forall (cfg : Cfg) w buf1 buf2 b1 n1, Uniform w -> w buf1 = Ok (b1, n1) -> n1 + slack <= length buf2 ->
  exists b2, w buf2 = Ok (b2, n1).
Proof. exact @uniform_larger. Qed.
Print Assumptions C68_larger.

(** ** Elements: every value, also those no constructor of the crate makes *)
Theorem C68_elements : forall (cfg : Cfg),
  (forall x, Uniform (et_write SSIDElement x)) /\ (forall x, Uniform (et_write MeshIDElement x)) /\
  (forall x, Uniform (et_write SupportedRatesElement x)) /\ (forall x, Uniform (et_write ExtendedSupportedRatesElement x)) /\
  (forall x, Uniform (et_write DSSSParameterSetElement x)) /\ (forall x, Uniform (et_write IBSSParameterSetElement x)) /\
  (forall x, Uniform (et_write BSSLoadElement x)) /\ (forall x, Uniform (et_write HTCapabilitiesElement x)) /\
  (forall x, Uniform (et_write HTOperationElement x)) /\ (forall x, Uniform (et_write VHTCapabilitiesElement x)) /\
  (forall x, Uniform (et_write VHTOperationElement x)) /\ (forall x, Uniform (et_write MeshConfigurationElement x)) /\
  (forall x, Uniform (et_write OWETransitionModeElement x)) /\ (forall x, Uniform (et_write RsnElement x)) /\
  (forall x, Uniform (et_write MacAddressKde x)) /\ (forall x, Uniform (et_write PmkidKde x)) /\ (forall x, Uniform (et_write NonceKde x)) /\
  (forall x, Uniform (et_write LifetimeKde x)) /\ (forall x, Uniform (et_write GtkKde x)) /\ (forall x, Uniform (et_write VendorSpecificElement x)).
Proof. exact @elements_uniform. Qed.
Print Assumptions C68_elements.
(** The two element types that can panic, and exactly when: *)
Theorem C68_peering : forall (cfg : Cfg) x, Uniform (et_write MeshPeeringElement x) <-> mp_rest_len x <= length (mp_rest x).
Proof. exact @peering_exact. Qed.
Print Assumptions C68_peering.
Theorem C68_tim : forall (cfg : Cfg) t, Uniform (et_write TIMElement t) <-> (te_period t < te_count t)%N \/ bitmap_readable t.
Proof. exact @tim_exact. Qed.
Print Assumptions C68_tim.
(** ... and a bitmap a macro makes that cannot be looked at *)
Theorem C68_tim_refuted : forall (cfg : Cfg), exists tb, tim_bitmap_list [0; 0] = Ok tb /\ ~ Uniform (et_write TIMElement (mkTIM 0 1 (Some tb))).
Proof. exact @tim_not_uniform. Qed.
Print Assumptions C68_tim_refuted.
(** Element headers, raw elements and chains of both keep it. *)
Theorem C68_wrapped : forall (cfg : Cfg) e, Uniform (e_write e) -> Uniform (wr_wrapped e).
Proof. exact @wrapped_uniform. Qed.
Print Assumptions C68_wrapped.
Theorem C68_raw : forall (cfg : Cfg) e, Uniform (wr_raw_tlv e).
Proof. exact @raw_tlv_uniform. Qed.
Print Assumptions C68_raw.
(** everything that can be put in a frame for elements or payload: received elements, bytes, nothing, a chain, a data payload; the iterator over elements *)
Theorem C68_containers : forall (cfg : Cfg),
  (forall bs, Uniform (c_write (c_read_elements bs))) /\ (forall bs, Uniform (c_write (c_bytes bs))) /\ Uniform (c_write c_empty) /\
  (forall c, Forall (fun i => match i with Typed e => Uniform (e_write e) | RawItem _ => True end) (chain_items c) -> Uniform (c_write (c_chain c))) /\
  (forall p, Uniform (c_write (c_payload p))) /\ (forall st, Uniform (iter_write st)).
Proof. exact @containers_uniform. Qed.
Print Assumptions C68_containers.

(** ** Frames *)
Theorem C68_mgmt : forall (cfg : Cfg),
  (forall h b fcs, Uniform (c_write (bb_elements b)) -> Uniform (wr_mgmt Beacon h b fcs)) /\
  (forall h b fcs, Uniform (c_write (bb_elements b)) -> Uniform (wr_mgmt ProbeResponse h b fcs)) /\
  (forall h b fcs, Uniform (c_write (pq_elements b)) -> Uniform (wr_mgmt ProbeRequest h b fcs)) /\
  (forall h b fcs, Uniform (c_write (au_elements b)) -> Uniform (wr_mgmt Authentication h b fcs)) /\
  (forall h b fcs, Uniform (c_write (aq_elements b)) -> Uniform (wr_mgmt AssociationRequest h b fcs)) /\
  (forall h b fcs, Uniform (c_write (ar_elements b)) -> Uniform (wr_mgmt AssociationResponse h b fcs)) /\
  (forall h b fcs, Uniform (c_write (rb_elements b)) -> Uniform (wr_mgmt Deauthentication h b fcs)) /\
  (forall h b fcs, Uniform (c_write (rb_elements b)) -> Uniform (wr_mgmt Disassociation h b fcs)) /\
  (forall h b fcs, Uniform (wr_mgmt RawAction h b fcs)) /\
  (forall h b fcs, Uniform (c_write (va_payload b)) -> Uniform (wr_mgmt RawVendorSpecificAction h b fcs)) /\
  (forall h b fcs, Uniform (c_write (mo_elements b)) -> Uniform (wr_mgmt MeshPeeringOpen h b fcs)) /\
  (forall h b fcs, Uniform (c_write (mc_elements b)) -> Uniform (wr_mgmt MeshPeeringConfirm h b fcs)) /\
  (forall h b fcs, Uniform (c_write (ml_elements b)) -> Uniform (wr_mgmt MeshPeeringClose h b fcs)).
Proof. exact @mgmt_frames_uniform. Qed.
Print Assumptions C68_mgmt.
Theorem C68_control : forall (cfg : Cfg) c, Uniform (wr_ctrl c).
Proof. exact @ctrl_uniform. Qed.
Print Assumptions C68_control.
(** A data frame with an unknown subtype that has no room panics if arithmetic overflow is checked, for every buffer; all others keep it. *)
Theorem C68_data : forall (cfg : Cfg) h p fcs, overflow_checks = false \/ subtype_fits h ->
  (forall c, p = Some c -> Uniform (c_write c)) -> Uniform (wr_data (h, p) fcs).
Proof. exact @data_uniform. Qed.
Print Assumptions C68_data.
Theorem C68_data_panics : forall (cfg : Cfg) h p fcs buf, overflow_checks = true -> ~ subtype_fits h -> wr_data (h, p) fcs buf = Panic.
Proof. exact @data_panics. Qed.
Print Assumptions C68_data_panics.
Theorem C68_data_refuted : forall (cfg : Cfg), overflow_checks = true -> let h := dhdr (Dt_Unknown 16) 0 None None None in
  ~ subtype_fits h /\ ~ Uniform (wr_data (h, None) false).
Proof. exact @data_not_uniform. Qed.
Print Assumptions C68_data_refuted.
Theorem C68_key_frame : forall (cfg : Cfg) (k : KeyFrame Container), Uniform (c_write (key_data k)) -> Uniform (wr_key_frame k).
Proof. exact @key_frame_uniform. Qed.
Print Assumptions C68_key_frame.
Theorem C68_snap : forall (cfg : Cfg) oui et c, Uniform (c_write c) -> Uniform (c_write (c_snap (mkSnap oui et c))).
Proof. exact @snap_uniform. Qed.
Print Assumptions C68_snap.
(** A payload with the crypto header: without a MIC. With a MIC it panics if the buffer ends in the MIC. *)
Theorem C68_crypto_partial : forall (cfg : Cfg) h c, Uniform (c_write c) -> Uniform (c_write (c_crypto (mkCW h c Mic_NotPresent))).
Proof. exact @crypto_uniform. Qed.
Print Assumptions C68_crypto_partial.
Theorem C68_crypto_refuted : forall (cfg : Cfg), let c := c_crypto (mkCW (mkCH [1; 0; 0; 0; 0; 0]%N 0) (c_bytes [1; 2; 3]%N) Mic_Short) in
  c_write c (repeat 0%N 15) = Panic /\ ~ Uniform (c_write c).
Proof. exact @crypto_not_uniform. Qed.
Print Assumptions C68_crypto_refuted.
(** Exactly, for every buffer: with a MIC the outcome is that without, followed by zeros for the MIC, unless the buffer ends in the MIC: then it panics.
    The same for whole frames, with and without FCS. *)
Theorem C68_crypto_exact : forall (cfg : Cfg) h c mic buf, Uniform (c_write c) ->
  c_write (c_crypto (mkCW h c mic)) buf
  = match c_write (c_crypto (mkCW h c Mic_NotPresent)) buf with
    | Ok (b, n) => if n + mic_length mic <=? length buf
                   then Ok (firstn n b ++ repeat 0%N (mic_length mic) ++ skipn (n + mic_length mic) buf, n + mic_length mic) else Panic
    | r => r
    end.
Proof. exact @crypto_outcome. Qed.
Print Assumptions C68_crypto_exact.
Theorem C68_crypto_frame : forall (cfg : Cfg) d h c mic buf, Uniform (c_write c) ->
  wr_data (d, Some (c_crypto (mkCW h c mic))) false buf
  = match wr_data (d, Some (c_crypto (mkCW h c Mic_NotPresent))) false buf with
    | Ok (b, n) => if n + mic_length mic <=? length buf
                   then Ok (firstn n b ++ repeat 0%N (mic_length mic) ++ skipn (n + mic_length mic) buf, n + mic_length mic) else Panic
    | r => r
    end.
Proof. exact @crypto_frame_outcome. Qed.
Print Assumptions C68_crypto_frame.
Theorem C68_crypto_frame_panics : forall (cfg : Cfg) d h c mic fcs buf, Uniform (c_write c) ->
  wr_data (d, Some (c_crypto (mkCW h c mic))) fcs buf = Panic <->
  wr_data (d, Some (c_crypto (mkCW h c Mic_NotPresent))) false buf = Panic \/
  exists b n, wr_data (d, Some (c_crypto (mkCW h c Mic_NotPresent))) false buf = Ok (b, n) /\ length buf < n + mic_length mic.
Proof. exact @crypto_frame_panics. Qed.
Print Assumptions C68_crypto_frame_panics.
(** a frame of 24 + 8 + 3 + 8 bytes and FCS: in 36 bytes it panics, in 44 there is no room for the FCS, in 48 there is *)
Example C68_crypto_frame_ex : forall (cfg : Cfg), let w := wr_data (dhdr Dt_Data 0 None None None, Some (c_crypto (mkCW (mkCH [1; 0; 0; 0; 0; 0]%N 0) (c_bytes [1; 2; 3]%N) Mic_Short))) true in
  w (repeat 0%N 36) = Panic /\ (exists e, w (repeat 0%N 44) = Err e) /\ exists b, w (repeat 0%N 48) = Ok (b, 47).
Proof. intros [[] [] []]; (split; [vm_compute; reflexivity|]); (split; [eexists; vm_compute; reflexivity|]); eexists; vm_compute; reflexivity. Qed.
(** An A-MSDU does not panic either, but the padding between and after the subframes is never written: what was in the buffer before is sent with the
    frame, and the reported size can be larger than the buffer. *)
Theorem C68_amsdu_partial : forall (cfg : Cfg) l buf, Forall (fun s => Uniform (c_write (sf_payload s))) l -> c_write (c_amsdu l) buf <> Panic.
Proof. exact @amsdu_no_panic. Qed.
Print Assumptions C68_amsdu_partial.
Theorem C68_amsdu_refuted : forall (cfg : Cfg), let c := c_amsdu [sub_of sub1] in
  (exists b1 b2, c_write c (repeat 0%N 20) = Ok (b1, 16) /\ c_write c (repeat 255%N 20) = Ok (b2, 16) /\ nth 15 b1 0%N = 0%N /\ nth 15 b2 0%N = 255%N) /\
  (strict_end = false -> exists b, c_write c (repeat 0%N 15) = Ok (b, 16) /\ length b = 15) /\ ~ Uniform (c_write c).
Proof. exact @amsdu_leaks. Qed.
Print Assumptions C68_amsdu_refuted.

(** An SSID element of a beacon, in two buffers with different content. *)
Example C68_ex : forall (cfg : Cfg), Uniform (c_write (c_chain (ChainEnd (Typed (elem_of SSIDElement [65; 66]%N))))).
Proof. intros. apply C68_containers. apply Forall_cons; [apply C68_elements|apply Forall_nil]. Qed.
Example C68_same_ex : forall (cfg : Cfg), let w := c_write (c_chain (ChainEnd (Typed (elem_of SSIDElement [65; 66]%N)))) in
  w (repeat 0%N 5) = Ok ([0; 2; 65; 66; 0]%N, 4) /\ w (repeat 255%N 6) = Ok ([0; 2; 65; 66; 255; 255]%N, 4).
Proof. intros [[] [] []]; split; vm_compute; reflexivity. Qed.
(** values without an encoding: an SSID of 300 bytes, a TIM element with a count above the period *)
Example C68_too_long_ex : forall (cfg : Cfg) buf, exists e, wr_wrapped (elem_of SSIDElement (repeat 65%N 300)) buf = Err e.
Proof.
  intros. destruct (C68_wrapped cfg (elem_of SSIDElement (repeat 65%N 300))) as [[bs W]|F]; [apply C68_elements| |apply F].
  exfalso. pose proof (writes_ok _ _ W (repeat 0%N (length bs + slack))) as E. rewrite repeat_length in E. specialize (E (le_n _)).
  unfold wr_wrapped, pwrite, gwrite in E. cbn [elem_of e_id] in E. destruct (end_bad _ _) in E; discriminate E.
Qed.
Example C68_readable_ex : forall (cfg : Cfg), bitmap_readable (mkTIM 0 1 (Some (mkTB 2%N (Some (BSlice [1; 2]%N))))) /\ bitmap_readable (mkTIM 0 1 None).
Proof. split; intros tb b E B; [injection E as <-; injection B as <-|]; discriminate. Qed.
Example C68_fits_ex : subtype_fits (dhdr Dt_QoSData 0 None (Some [0; 0]%N) None) /\ subtype_fits (dhdr (Dt_Unknown 13) 0 None None None).
Proof. split; intros n E; [discriminate E|injection E as <-; reflexivity]. Qed.
Example C68_data_ex : forall (cfg : Cfg), Uniform (wr_data (dhdr Dt_QoSData 0 None (Some [0; 0]%N) None, Some (c_bytes [1; 2; 3]%N)) true).
Proof. intros. apply C68_data; [right; apply C68_fits_ex|]. intros c E. injection E as <-. apply C68_containers. Qed.
