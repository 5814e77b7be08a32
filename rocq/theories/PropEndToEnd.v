(** C60 and C61: views of one frame, and the way of a frame from the sender's value to the receiver's block. *)
From Verif Require Import Base SpecBase Enums Common Crc Elements SpecElements ElementTypes SpecElementTypes Mgmt SpecMgmt MgmtFacts2
  Data SpecData Control Generic SpecGeneric GenericFacts ElementTypesFacts SpecPortable ViewFacts SpecDelivery DeliveryFacts.

(** ** C60: the generic view and the typed view of a frame agree *)
(** Whatever management frame type [t] accepts, the generic view accepts too, and its fields are those of the typed header; for the
    sequence control on little endian targets, while on big endian targets its bytes are exchanged ([swapped], SpecPortable.v). *)
Theorem C60_mgmt_partial : forall (cfg : Cfg) W R (t : BodyType W R) fcs bs h r n, wf_bytes bs -> rd_mgmt t fcs bs = Ok ((h, r), n) ->
  exists g x s, gf_new bs fcs = Ok g /\ gf_fcf g = Ok x /\ fcf_flags x = mh_flags h /\ fcf_frame_type x = FT_Management s /\
    gf_duration g = Ok (mh_duration h) /\ gf_address_1 g = Ok (mh_ra h) /\ gf_address_2 g = Ok (Some (mh_ta h)) /\
    gf_address_3 g = Ok (Some (mh_bssid h)) /\
    gf_sequence_control g = Ok (Some (if native_le then mh_seq h else swapped (mh_seq h))).
Proof. exact @mgmt_view. Qed.
Print Assumptions C60_mgmt_partial.
Theorem C60_sequence_refuted : forall (cfg : Cfg), native_le = false -> exists bs h r n q, wf_bytes bs /\
  rd_mgmt ProbeRequest false bs = Ok ((h, r), n) /\ gf_sequence_control bs = Ok (Some q) /\ q <> mh_seq h.
Proof. exact @views_mgmt_big_endian. Qed.
Print Assumptions C60_sequence_refuted.
(** Data frames; the duration like the sequence control above. *)
Theorem C60_data_partial : forall (cfg : Cfg) fcs bs h p n, wf_bytes bs -> rd_data fcs bs = Ok ((h, p), n) ->
  exists g x, gf_new bs fcs = Ok g /\ gf_fcf g = Ok x /\ fcf_flags x = dh_flags h /\ fcf_frame_type x = FT_Data (dh_subtype h) /\
    gf_duration g = Ok (if native_le then dh_duration h else swapped (dh_duration h)) /\
    gf_address_1 g = Ok (dh_a1 h) /\ gf_address_2 g = Ok (Some (dh_a2 h)) /\ gf_address_3 g = Ok (Some (dh_a3 h)) /\
    gf_sequence_control g = Ok (Some (dh_seq h)).
Proof. exact @data_view. Qed.
Print Assumptions C60_data_partial.
Theorem C60_duration_refuted : forall (cfg : Cfg), native_le = false -> exists bs h p n d, wf_bytes bs /\
  rd_data false bs = Ok ((h, p), n) /\ gf_duration bs = Ok d /\ d <> dh_duration h.
Proof. exact @views_data_big_endian. Qed.
Print Assumptions C60_duration_refuted.
(** Control frames, whose body the user reads behind the frame control field of the generic view; the typed transmitter address is
    where the generic view's second address would be. *)
Theorem C60_control_partial : forall (cfg : Cfg) g x s c n, wf_bytes g -> 10 <= length g -> gf_fcf g = Ok x -> fcf_frame_type x = FT_Control s ->
  rd_ctrl s (fcf_flags x) (skipn 2 g) = Ok (c, n) ->
  gf_address_1 g = Ok (ctrl_receiver_address c) /\ gf_address_3 g = Ok None /\ gf_sequence_control g = Ok None /\
  match c with C_RTS _ d _ _ | C_CTS _ d _ | C_Ack _ d _ => gf_duration g = Ok d | C_Unknown _ _ body => g = firstn 2 g ++ body end /\
  (forall a, ctrl_transmitter_address c = Some a -> field_at 6 10 g = Some a).
Proof. exact @ctrl_view. Qed.
Print Assumptions C60_control_partial.
(** But the generic view does not show the transmitter of a request to send. *)
Theorem C60_rts_refuted : forall (cfg : Cfg), exists g x c n, wf_bytes g /\ 10 <= length g /\ gf_fcf g = Ok x /\ fcf_frame_type x = FT_Control Ct_RTS /\
  rd_ctrl Ct_RTS (fcf_flags x) (skipn 2 g) = Ok (c, n) /\ ctrl_transmitter_address c <> None /\ gf_address_2 g = Ok None.
Proof. exact @views_rts. Qed.
Print Assumptions C60_rts_refuted.
Theorem C60_rts_exact : forall (cfg : Cfg) g x c n, gf_fcf g = Ok x -> fcf_frame_type x = FT_Control Ct_RTS ->
  rd_ctrl Ct_RTS (fcf_flags x) (skipn 2 g) = Ok (c, n) -> ctrl_transmitter_address c <> None /\ gf_address_2 g = Ok None.
Proof. exact @rts_view. Qed.
Print Assumptions C60_rts_exact.
Example C60_ex (cfg : Cfg) : wf_bytesb (GenericFacts3.beacon_like ++ [0; 1; 65])%N = true /\
  (exists x, rd_mgmt ProbeRequest false (GenericFacts3.beacon_like ++ [0; 1; 65])%N = Ok x) /\
  exists x, rd_data false ([8; 0; 1; 0] ++ repeat 7 18 ++ [0x10; 0x20] ++ [1; 2])%N = Ok x.
Proof. destruct cfg as [[] [] []]; (split; [reflexivity|]; split; eexists; vm_compute; reflexivity). Qed.

(** ** C61: from the sender's value to the receiver's block *)
(** [Delivered t i subtype ok fixed cont conv empty_ok] (SpecDelivery.v): every admissible header and body, written with or without
    frame check sequence and dispatched with [match_frames!] over any arms for different types, runs the block of its own type on the
    same header and content. (Frames without elements: unless scroll refuses empty reads at the end of data.) *)
Theorem C61_mgmt : forall (cfg : Cfg),
  Delivered Beacon 0 8 ok_beacon fixed_beacon bb_elements with_beacon False /\
  Delivered ProbeResponse 1 5 ok_beacon fixed_beacon bb_elements with_beacon False /\
  Delivered ProbeRequest 2 4 ok_any fixed_probe pq_elements with_probe False /\
  Delivered Authentication 3 11 ok_auth fixed_auth au_elements with_auth False /\
  Delivered AssociationRequest 4 0 ok_assoc_req fixed_assoc_req aq_elements with_assoc_req False /\
  Delivered AssociationResponse 5 1 ok_assoc_resp fixed_assoc_resp ar_elements with_assoc_resp False /\
  Delivered Deauthentication 6 12 ok_reason fixed_reason rb_elements with_reason False /\
  Delivered Disassociation 7 10 ok_reason fixed_reason rb_elements with_reason False /\
  Delivered RawVendorSpecificAction 8 13 ok_vendor fixed_vendor va_payload with_vendor True /\
  Delivered MeshPeeringOpen 9 13 ok_open fixed_open mo_elements with_open False /\
  Delivered MeshPeeringConfirm 10 13 ok_confirm fixed_confirm mc_elements with_confirm False /\
  Delivered MeshPeeringClose 11 13 ok_any fixed_close ml_elements with_close False.
Proof. exact @all_delivered. Qed.
Print Assumptions C61_mgmt.
(** Data frames; on big endian targets duration and sequence control are not those of the sender ([C29_big_endian_refuted]). *)
Theorem C61_data_partial : forall (cfg : Cfg), DeliveredData.
Proof. exact @data_delivered. Qed.
Print Assumptions C61_data_partial.
(** And the receiver of a beacon finds in it the elements of the sender's chain. *)
Theorem C61_beacon_elements : forall (cfg : Cfg) V Q (t : ElementType V Q) okv cv A (l : list (nat * Arm A)) block
    h (w : BeaconLikeBody Container) c raws os fcs buf,
  lookup_id (et_id t) -> NoPanic (et_read t) -> RoundTrip t okv cv ->
  chain_of_elements c raws -> wf_bytes (enc_elements raws) -> holds_values t okv (chain_items c) os ->
  typed_arms l -> In (0, mkArm _ _ (mgmt_kind Beacon) (rd_mgmt Beacon) block) l ->
  ok_mgmt_header h -> ok_beacon w -> bb_elements w = c_chain c ->
  length (enc_frame fcs (enc_mgmt 8 h (fixed_beacon w ++ enc_elements raws))) + slack <= length buf ->
  exists buf' n, wr_mgmt Beacon h w fcs buf = Ok (buf', n) /\
    match_frames (firstn n buf') (if fcs then Some true else None) (map snd l) = Ok (block (h, with_beacon w (enc_elements raws))) /\
    get_matching_elements t (bb_elements (with_beacon w (enc_elements raws))) = Ok (map cv (somes os)) /\
    get_first_element t (bb_elements (with_beacon w (enc_elements raws))) = Ok (option_map cv (hd_error (somes os))).
Proof. exact @beacon_elements_delivered. Qed.
Print Assumptions C61_beacon_elements.
Example C61_ex (cfg : Cfg) :
  let c := chain_of (Typed (elem_of DSSSParameterSetElement 6%N)) [RawItem (mkRaw 0 [84; 101; 115; 116]%N)] in
  let raws := [mkRaw 3 [6]; mkRaw 0 [84; 101; 115; 116]]%N in
  let h := mkMH 0x40 300 (repeat 1%N 6) (repeat 2%N 6) (repeat 3%N 6) 0x1230 None in
  let l := [(2, mkArm _ _ (mgmt_kind ProbeRequest) (rd_mgmt ProbeRequest) (fun _ => 0%N));
            (0, mkArm _ _ (mgmt_kind Beacon) (rd_mgmt Beacon) (fun x => bb_timestamp (snd x)))] in
  chain_of_elements c raws /\ ok_mgmt_header h /\ ok_beacon (mkBeacon 5 100 1 (c_chain c)) /\ typed_arms l /\
  exists buf n, wr_mgmt Beacon h (mkBeacon 5 100 1 (c_chain c)) true (repeat 0%N 50) = Ok (buf, n) /\
    match_frames (firstn n buf) (Some true) (map snd l) = Ok 5%N.
Proof.
  cbv zeta. split. { split; [|split; [|split]].
    - constructor; [|constructor; [reflexivity|constructor]]. exists (Id 3), [6]%N. split; [|reflexivity]. split; [reflexivity|].
      split; [reflexivity|]. now apply (fl_write _ _ _ _ _ _ dsss_fixed).
    - repeat constructor.
    - repeat constructor; cbn; lia.
    - right. right. discriminate. }
  split; [repeat split; try reflexivity; repeat constructor|]. split; [repeat split; reflexivity|].
  split; [split; [cbn; repeat constructor; cbn; intuition discriminate|repeat constructor; eexists; reflexivity]|].
  destruct cfg as [[] [] []]; do 2 eexists; (split; [vm_compute; reflexivity|]); vm_compute; reflexivity.
Qed.
