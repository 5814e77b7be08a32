(** C24 to C27, C45, C49: management frames. *)
From Verif Require Import Base SpecBase Enums Common Crc Elements SpecElements ElementTypes SpecElementTypes Mgmt SpecMgmt
  MgmtFacts MgmtFacts2 MgmtFacts3 MgmtFacts4 MgmtFacts5 ActionState ActionStateFacts Vendor VendorFacts.

(** ** C24: writing and reading back, for every frame type *)
(** [MgmtRoundTrip t subtype ok fixed cont conv empty_ok] (SpecMgmt.v): the frame of every
    admissible header and body is the frame control field with this subtype, the header, the
    fixed fields and the elements (and the FCS), in every buffer, and is read back as the same
    header, fields and element bytes. *)
Theorem C24_beacon : forall (cfg : Cfg), MgmtRoundTrip Beacon 8 ok_beacon fixed_beacon bb_elements with_beacon False.
Proof. exact @beacon_rt. Qed.
Print Assumptions C24_beacon.
Theorem C24_probe_response : forall (cfg : Cfg), MgmtRoundTrip ProbeResponse 5 ok_beacon fixed_beacon bb_elements with_beacon False.
Proof. exact @probe_resp_rt. Qed.
Print Assumptions C24_probe_response.
Theorem C24_probe_request : forall (cfg : Cfg), MgmtRoundTrip ProbeRequest 4 ok_any fixed_probe pq_elements with_probe False.
Proof. exact @probe_rt. Qed.
Print Assumptions C24_probe_request.
Theorem C24_authentication : forall (cfg : Cfg), MgmtRoundTrip Authentication 11 ok_auth fixed_auth au_elements with_auth False.
Proof. exact @auth_rt. Qed.
Print Assumptions C24_authentication.
Theorem C24_association_request : forall (cfg : Cfg), MgmtRoundTrip AssociationRequest 0 ok_assoc_req fixed_assoc_req aq_elements with_assoc_req False.
Proof. exact @assoc_req_rt. Qed.
Print Assumptions C24_association_request.
Theorem C24_association_response : forall (cfg : Cfg), MgmtRoundTrip AssociationResponse 1 ok_assoc_resp fixed_assoc_resp ar_elements with_assoc_resp False.
Proof. exact @assoc_resp_rt. Qed.
Print Assumptions C24_association_response.
Theorem C24_deauthentication : forall (cfg : Cfg), MgmtRoundTrip Deauthentication 12 ok_reason fixed_reason rb_elements with_reason False.
Proof. exact @deauth_rt. Qed.
Print Assumptions C24_deauthentication.
Theorem C24_disassociation : forall (cfg : Cfg), MgmtRoundTrip Disassociation 10 ok_reason fixed_reason rb_elements with_reason False.
Proof. exact @disassoc_rt. Qed.
Print Assumptions C24_disassociation.
Theorem C24_raw_action : forall (cfg : Cfg),
  MgmtRoundTrip RawAction 13 ok_raw_action fixed_raw_action (fun b => c_bytes (ra_payload b)) with_raw_action True.
Proof. exact @raw_action_rt. Qed.
Print Assumptions C24_raw_action.
Theorem C24_vendor_action : forall (cfg : Cfg), MgmtRoundTrip RawVendorSpecificAction 13 ok_vendor fixed_vendor va_payload with_vendor True.
Proof. exact @vendor_rt. Qed.
Print Assumptions C24_vendor_action.
Theorem C24_mesh_open : forall (cfg : Cfg), MgmtRoundTrip MeshPeeringOpen 13 ok_open fixed_open mo_elements with_open False.
Proof. exact @open_rt. Qed.
Print Assumptions C24_mesh_open.
Theorem C24_mesh_confirm : forall (cfg : Cfg), MgmtRoundTrip MeshPeeringConfirm 13 ok_confirm fixed_confirm mc_elements with_confirm False.
Proof. exact @confirm_rt. Qed.
Print Assumptions C24_mesh_confirm.
Theorem C24_mesh_close : forall (cfg : Cfg), MgmtRoundTrip MeshPeeringClose 13 ok_any fixed_close ml_elements with_close False.
Proof. exact @close_rt. Qed.
Print Assumptions C24_mesh_close.
(** the element containers the hypotheses of [MgmtRoundTrip] speak about *)
Theorem C24_containers : forall (cfg : Cfg),
  (forall bs, Writes (c_write (c_read_elements bs)) bs) /\
  (forall bs, WritesT (c_write (c_bytes bs)) bs) /\
  WritesT (c_write c_empty) [] /\
  (forall c raws, Forall2 item_element (chain_items c) raws -> Forall wf_item (chain_items c) -> Forall fits raws ->
     Writes (c_write (c_chain c)) (enc_elements raws)).
Proof. exact (fun cfg => conj c_read_elements_W (conj c_bytes_T (conj c_empty_T (@ElementsFacts.wr_chain_W cfg)))). Qed.
Print Assumptions C24_containers.
(** The header type allows combinations for which the claim is false: the HT control field is
    written if it is there and read if the order flag is set. *)
Theorem C24_order_refuted : forall (cfg : Cfg),
  let h := hdr 128 None in let w := mkReason (reason_from_bits 3) (c_read_elements [221; 4; 1; 2; 3; 4]%N) in
  exists frame, Writes (wr_mgmt Deauthentication h w false) frame /\
    exists r, pread (rd_mgmt Deauthentication false) frame 0 = Ok r /\ fst r <> h /\ snd r <> mkReason (reason_from_bits 3) [221; 4; 1; 2; 3; 4]%N.
Proof. exact @order_without_ht. Qed.
Print Assumptions C24_order_refuted.
Theorem C24_ht_refuted : forall (cfg : Cfg),
  let h := hdr 0 (Some [1; 0; 0; 0]%N) in let w := mkReason (reason_from_bits 3) (c_read_elements [221; 4; 1; 2; 3; 4]%N) in
  exists frame, Writes (wr_mgmt Deauthentication h w false) frame /\
    exists r, pread (rd_mgmt Deauthentication false) frame 0 = Ok r /\ fst r <> h /\ snd r <> mkReason (reason_from_bits 3) [221; 4; 1; 2; 3; 4]%N.
Proof. exact @ht_without_order. Qed.
Print Assumptions C24_ht_refuted.
(** If scroll refuses empty reads at the end, a frame without elements cannot be read. *)
Theorem C24_strict_end_refuted : forall (cfg : Cfg), strict_end = true ->
  exists h w frame, ok_mgmt_header h /\ ok_reason w /\ c_write (rb_elements w) = c_write c_empty /\
    Writes (wr_mgmt Deauthentication h w false) frame /\
    exists e, pread (rd_mgmt Deauthentication false) frame 0 = Err e.
Proof. exact @strict_no_elements. Qed.
Print Assumptions C24_strict_end_refuted.
(** The requested subtype is not compared with the received one. *)
Theorem C24_subtype_unchecked : forall (cfg : Cfg), exists h w es frame r,
  ok_mgmt_header h /\ ok_beacon w /\ wf_bytes es /\ Writes (c_write (bb_elements w)) es /\
  Writes (wr_mgmt Beacon h w false) frame /\ pread (rd_mgmt Authentication false) frame 0 = Ok r.
Proof. exact @subtype_unchecked. Qed.
Print Assumptions C24_subtype_unchecked.
(** a header with all fields set, and a beacon with FCS *)
Example C24_ex (cfg : Cfg) :
  let h := mkMH 0xc0 300 (addr 1) (addr 2) (addr 3) 0x1230 (Some [1; 2; 3; 4]%N) in
  ok_mgmt_header h /\
  ok_beacon (mkBeacon 1234567 100 0x431 (c_read_elements [0; 1; 65]%N)) /\
  pread (rd_mgmt Beacon true) (enc_frame true (enc_mgmt 8 h (fixed_beacon (mkBeacon 1234567 100 0x431 tt) ++ [0; 1; 65]%N))) 0
    = Ok (h, mkBeacon 1234567 100 0x431 [0; 1; 65]%N) /\
  (exists r, wr_mgmt Beacon h (mkBeacon 1234567 100 0x431 (c_read_elements [0; 1; 65]%N)) true (repeat 0%N 47) = Ok r /\ snd r = 47) /\
  ok_assoc_resp (mkAssocResp 1 (status_from_bits 0) (Some 49157%N) c_empty) /\
  ok_auth (mkAuth (auth_algo_from_bits 3) 1 (status_from_bits 0) c_empty) /\
  ok_confirm (mkConfirm 0 49153%N c_empty).
Proof.
  split. { unfold ok_mgmt_header, addr, address, u8, u16, wf_bytes. cbn. repeat split; auto; repeat constructor. }
  split; [repeat split; reflexivity|].
  split; [destruct cfg as [[] [] []]; vm_compute; reflexivity|].
  split; [destruct cfg as [[] [] []]; eexists; (split; [vm_compute; reflexivity|reflexivity])|].
  split. { repeat split; try reflexivity; cbn; lia. }
  split; [repeat split; reflexivity|]. split; [reflexivity|cbn; split; lia].
Qed.

(** ** C25: announced sizes *)
(** [MgmtMeasure t ... missing]: the announced size plus [missing] is the size of the frame
    written by C24. *)
Theorem C25_partial : forall (cfg : Cfg),
  MgmtMeasure Beacon 8 ok_beacon fixed_beacon bb_elements 0 /\
  MgmtMeasure ProbeResponse 5 ok_beacon fixed_beacon bb_elements 0 /\
  MgmtMeasure Authentication 11 ok_auth fixed_auth au_elements 0 /\
  MgmtMeasure AssociationRequest 0 ok_assoc_req fixed_assoc_req aq_elements 0 /\
  MgmtMeasure AssociationResponse 1 ok_assoc_resp fixed_assoc_resp ar_elements 0 /\
  MgmtMeasure Deauthentication 12 ok_reason fixed_reason rb_elements 0 /\
  MgmtMeasure Disassociation 10 ok_reason fixed_reason rb_elements 0 /\
  MgmtMeasure ProbeRequest 4 ok_any fixed_probe pq_elements 0 /\
  MgmtMeasure RawAction 13 ok_raw_action fixed_raw_action (fun b => c_bytes (ra_payload b)) 0.
Proof. exact @measures. Qed.
Print Assumptions C25_partial.
(** the other four types always announce one byte too little *)
Theorem C25_action_partial : forall (cfg : Cfg),
  MgmtMeasure RawVendorSpecificAction 13 ok_vendor fixed_vendor va_payload 1 /\
  MgmtMeasure MeshPeeringOpen 13 ok_open fixed_open mo_elements 1 /\
  MgmtMeasure MeshPeeringConfirm 13 ok_confirm fixed_confirm mc_elements 1 /\
  MgmtMeasure MeshPeeringClose 13 ok_any fixed_close ml_elements 1.
Proof. exact @measures_short. Qed.
Print Assumptions C25_action_partial.
Theorem C25_refuted : forall (cfg : Cfg),
  exists (h : MgmtHeader) (v : VendorActionBody Container) (o : MeshOpenBody Container) (c : MeshConfirmBody Container) (l : MeshCloseBody Container),
  ok_mgmt_header h /\ ok_vendor v /\ ok_open o /\ ok_confirm c /\
  (forall buf n, wr_mgmt RawVendorSpecificAction h v true (repeat 0%N 100) = Ok (buf, n) -> mgmt_measure RawVendorSpecificAction h v true + 1 = n) /\
  (forall buf n, wr_mgmt MeshPeeringOpen h o true (repeat 0%N 100) = Ok (buf, n) -> mgmt_measure MeshPeeringOpen h o true + 1 = n) /\
  (forall buf n, wr_mgmt MeshPeeringConfirm h c true (repeat 0%N 100) = Ok (buf, n) -> mgmt_measure MeshPeeringConfirm h c true + 1 = n) /\
  (forall buf n, wr_mgmt MeshPeeringClose h l true (repeat 0%N 100) = Ok (buf, n) -> mgmt_measure MeshPeeringClose h l true + 1 = n) /\
  (exists r, wr_mgmt RawVendorSpecificAction h v true (repeat 0%N 100) = Ok r) /\
  (exists r, wr_mgmt MeshPeeringOpen h o true (repeat 0%N 100) = Ok r) /\
  (exists r, wr_mgmt MeshPeeringConfirm h c true (repeat 0%N 100) = Ok r) /\
  (exists r, wr_mgmt MeshPeeringClose h l true (repeat 0%N 100) = Ok r).
Proof. exact @short_measures. Qed.
Print Assumptions C25_refuted.
(** [length_in_bytes] of received bodies *)
Theorem C25_bodies :
  (forall b, beacon_length b = length (fixed_beacon b ++ bb_elements b)) /\
  (forall b, auth_length b = length (fixed_auth b ++ au_elements b)) /\
  (forall b, assoc_req_length b = length (fixed_assoc_req b ++ aq_elements b)) /\
  (forall b, assoc_resp_length b = length (fixed_assoc_resp b ++ ar_elements b)) /\
  (forall b, reason_length b = length (fixed_reason b ++ rb_elements b)) /\
  (forall b, probe_req_length b = length (fixed_probe b ++ pq_elements b)).
Proof. exact @body_lengths. Qed.
Print Assumptions C25_bodies.
(** ... and the lengths the containers of C24 announce are those of what they write (for chains as in C11) *)
Theorem C25_containers : forall (cfg : Cfg),
  (forall bs, c_measure (c_read_elements bs) = length bs) /\ (forall bs, c_measure (c_bytes bs) = length bs) /\
  c_measure c_empty = @length N [] /\
  (forall c raws, Forall2 item_element (chain_items c) raws -> Forall wf_item (chain_items c) -> Forall fits raws -> typed_end c ->
     c_measure (c_chain c) = length (enc_elements raws)).
Proof. exact @container_lengths. Qed.
Print Assumptions C25_containers.
Example C25_ex (cfg : Cfg) : mgmt_measure Beacon (hdr 128 (Some [0; 0; 0; 0]%N)) (mkBeacon 0 100 0 (c_read_elements [0; 1; 65]%N)) true = 47
  /\ c_measure (c_read_elements [0; 1; 65]%N) = length [0; 1; 65]%N.
Proof. split; reflexivity. Qed.

(** ** C26: no panics *)
Theorem C26_no_panic : forall (cfg : Cfg),
  MgmtTotal Beacon /\ MgmtTotal ProbeResponse /\ MgmtTotal Authentication /\ MgmtTotal AssociationRequest /\
  MgmtTotal AssociationResponse /\ MgmtTotal Deauthentication /\ MgmtTotal Disassociation /\ MgmtTotal ProbeRequest /\
  MgmtTotal RawAction /\ MgmtTotal RawVendorSpecificAction /\ MgmtTotal MeshPeeringOpen /\ MgmtTotal MeshPeeringConfirm /\
  MgmtTotal MeshPeeringClose.
Proof. exact @totals. Qed.
Print Assumptions C26_no_panic.
Example C26_ex (cfg : Cfg) : rd_mgmt Beacon true [1; 2; 3]%N = Panic /\ exists e, rd_mgmt Beacon true [1; 2; 3; 4]%N = Err e.
Proof. split; [reflexivity|]. destruct cfg as [[] [] []]; eexists; vm_compute; reflexivity. Qed.

(** ** C27: frames built step by step *)
(** After every sequence of calls with any outcomes the buffer holds the frame written at first and
    the elements of the successful calls in order. A failed call may have changed bytes behind. *)
Theorem C27_history : forall (cfg : Cfg) frame mpdu buf st0 calls raws st, Writes (frame false) mpdu ->
  dyn_new frame buf = Ok st0 -> dyn_steps st0 calls st -> Forall2 call_element calls raws ->
  let p := mpdu ++ enc_elements (added calls raws) in
  length (fst st) = length buf /\ snd st = length p /\ length p <= length buf /\ firstn (length p) (fst st) = p.
Proof. exact @dyn_history. Qed.
Print Assumptions C27_history.
(** The next call succeeds if there is room and fails if there is none. *)
Theorem C27_add : forall (cfg : Cfg) frame mpdu buf st0 calls raws st e raw b, Writes (frame false) mpdu ->
  dyn_new frame buf = Ok st0 -> dyn_steps st0 calls st -> Forall2 call_element calls raws -> call_element (e, b) raw ->
  let used := length (mpdu ++ enc_elements (added calls raws)) in
  (used + length (enc_element raw) + slack <= length buf -> exists st', dyn_add e st = Ok st') /\
  (length buf < used + length (enc_element raw) -> exists err, dyn_add e st = Err err) /\
  dyn_add e st <> Panic.
Proof. exact @dyn_next. Qed.
Print Assumptions C27_add.
(** Finishing succeeds exactly if there is room for the FCS and gives exactly the frame. *)
Theorem C27_finish_partial : forall (cfg : Cfg) frame mpdu buf st0 calls raws st fcs, Writes (frame false) mpdu ->
  dyn_new frame buf = Ok st0 -> dyn_steps st0 calls st -> Forall2 call_element calls raws ->
  let p := mpdu ++ enc_elements (added calls raws) in
  dyn_finish fcs st <> Panic /\
  (length (enc_frame fcs p) <= length buf <-> exists r, dyn_finish fcs st = Ok r) /\
  (fcs = false \/ native_le = true -> forall buf' n, dyn_finish fcs st = Ok (buf', n) -> firstn n buf' = enc_frame fcs p).
Proof. exact @dyn_result. Qed.
Print Assumptions C27_finish_partial.
(** It is the frame that is written in one go with the same elements ([w'] has the fixed fields of
    [w], and its container writes the elements of [w] followed by the added ones), and it can be
    read. *)
Theorem C27_static : forall (cfg : Cfg) W R (t : BodyType W R) subtype (ok : W -> Prop) fixed cont conv (empty_ok : Prop),
  MgmtRoundTrip t subtype ok fixed cont conv empty_ok ->
  forall h w es w' buf st0 calls raws st fcs buf' n,
  ok_mgmt_header h -> ok w -> wf_bytes es -> Writes (c_write (cont w)) es ->
  into_dynamic t h w buf = Ok st0 -> dyn_steps st0 calls st -> Forall2 call_element calls raws ->
  dyn_finish fcs st = Ok (buf', n) -> fcs = false \/ native_le = true ->
  ok w' -> fixed w' = fixed w -> wf_bytes (enc_elements (added calls raws)) ->
  Writes (c_write (cont w')) (es ++ enc_elements (added calls raws)) ->
  Writes (wr_mgmt t h w' fcs) (firstn n buf') /\
  (empty_ok \/ end_ok (es ++ enc_elements (added calls raws)) ->
   pread (rd_mgmt t fcs) (firstn n buf') 0 = Ok (h, conv w' (es ++ enc_elements (added calls raws)))).
Proof. exact @dyn_static. Qed.
Print Assumptions C27_static.
(** On big endian machines the FCS is written in the wrong order and the frame is refused. *)
Theorem C27_fcs_refuted : forall (cfg : Cfg), native_le = false -> exists (st : bytes * nat) buf n,
  into_dynamic ProbeRequest (hdr 0 None) (mkProbeReq c_empty) (repeat 0%N 100) = Ok st /\
  dyn_finish true st = Ok (buf, n) /\ exists e, pread (rd_mgmt ProbeRequest true) (firstn n buf) 0 = Err e.
Proof. exact @dyn_big_endian. Qed.
Print Assumptions C27_fcs_refuted.
(** an element that fits and one that does not *)
Example C27_ex (cfg : Cfg) :
  let ssid := elem_of SSIDElement [65; 66]%N in let channel := elem_of DSSSParameterSetElement 6%N in
  call_element (ssid, true) (mkRaw 0 [65; 66]%N) /\ call_element (channel, true) (mkRaw 3 [6]%N) /\
  exists st0 st, into_dynamic ProbeRequest (hdr 0 None) (mkProbeReq c_empty) (repeat 0%N 30) = Ok st0 /\
    dyn_steps st0 [(ssid, true); (channel, false); (ssid, false)] st /\
    firstn (snd st) (fst st) = enc_mgmt 4 (hdr 0 None) [0; 2; 65; 66]%N.
Proof.
  cbv zeta.
  assert (C : call_element (elem_of SSIDElement [65; 66]%N, true) (mkRaw 0 [65; 66]%N)).
  { exists (Id 0%N), [65; 66]%N. split; [|split; [reflexivity|split; [reflexivity|cbn; unfold fits; cbn; lia]]].
    split; [reflexivity|]. split; [reflexivity|]. apply BaseFacts.pwrite0_W, BaseFacts.wr_bytes_W. }
  split; [exact C|]. split.
  { exists (Id 3%N), [6]%N. split; [|split; [reflexivity|split; [reflexivity|cbn; unfold fits; cbn; lia]]].
    split; [reflexivity|]. split; [reflexivity|].
    apply BaseFacts.pwrite0_W, (ElementsFacts.wr_u8_small 6); reflexivity. }
  clear C. destruct cfg as [[] [] []]; (eexists; eexists; split; [vm_compute; reflexivity|]; split;
  [eapply Mgmt.dyn_next; [apply dyn_added; vm_compute; reflexivity|];
   eapply Mgmt.dyn_next; [eapply (dyn_failed _ _ _ _ [9; 9]%N); [vm_compute; reflexivity|reflexivity]|];
   eapply Mgmt.dyn_next; [eapply (dyn_failed _ _ _ _ [7; 7]%N); [vm_compute; reflexivity|reflexivity]|];
   apply dyn_done
  |reflexivity]).
Qed.

(** ** C45: action bodies *)
(** [ActionMatch t prefix]: the type matches a received action frame exactly if its body starts
    with these bytes (category and action), and nothing else is ever parsed. *)
Theorem C45_match : forall (cfg : Cfg),
  ActionMatch RawAction [] /\ ActionMatch RawVendorSpecificAction [127]%N /\ ActionMatch MeshPeeringOpen [15; 1]%N /\
  ActionMatch MeshPeeringConfirm [15; 2]%N /\ ActionMatch MeshPeeringClose [15; 3]%N.
Proof. exact (fun cfg => conj raw_action_match (conj vendor_match (conj open_match (conj confirm_match close_match)))). Qed.
Print Assumptions C45_match.
(** what is parsed starts with these bytes *)
Theorem C45_parsed : forall (cfg : Cfg),
  (forall body r n, wf_bytes body -> rd_vendor_action body = Ok (r, n) -> body = (127%N :: va_oui r) ++ va_payload r /\ length (va_oui r) = 3) /\
  (forall body r n, wf_bytes body -> rd_mesh_open body = Ok (r, n) -> body = [15; 1]%N ++ le_bytes 2 (mo_capabilities r) ++ mo_elements r) /\
  (forall body r n, wf_bytes body -> rd_mesh_close body = Ok (r, n) -> body = [15; 3]%N ++ ml_elements r).
Proof. exact @action_parsed. Qed.
Print Assumptions C45_parsed.
Theorem C45_oui : forall (cfg : Cfg) b0 rest oui, length oui = 3 -> exists b,
  is_vendor_and_matches (mkRA (category_from_bits b0) rest) oui = Ok b /\
  (b = true <-> exists more, b0 :: rest = 127%N :: oui ++ more).
Proof. exact @vendor_oui_match. Qed.
Print Assumptions C45_oui.
Theorem C45_append : forall (cfg : Cfg) oui p rest, length oui = 3 ->
  (4 <= length rest -> append_vendor_action_header oui (p ++ rest) (length p)
     = Ok (p ++ (127%N :: oui) ++ skipn 4 rest, length p + 4)) /\
  (length rest < 4 -> exists e, append_vendor_action_header oui (p ++ rest) (length p) = Err e).
Proof. exact @append_header_spec. Qed.
Print Assumptions C45_append.
(** The announced length of the header is the room it needs and the distance the offset moves. *)
Theorem C45_header_length : forall (cfg : Cfg) oui p rest, length oui = 3 ->
  ((exists buf o, append_vendor_action_header oui (p ++ rest) (length p) = Ok (buf, o)) <-> VENDOR_SPECIFIC_ACTION_HEADER_LENGTH <= length rest) /\
  (forall buf o, append_vendor_action_header oui (p ++ rest) (length p) = Ok (buf, o) -> o = length p + VENDOR_SPECIFIC_ACTION_HEADER_LENGTH) /\
  (forall o, strip_and_check_vendor_action_header oui (p ++ rest) (length p) = Ok o -> o = length p + VENDOR_SPECIFIC_ACTION_HEADER_LENGTH).
Proof. exact @header_length. Qed.
Print Assumptions C45_header_length.
(** Stripping succeeds exactly for a header with the same OUI; the new offset is behind it. *)
Theorem C45_strip : forall (cfg : Cfg) oui p rest, length oui = 3 ->
  match strip_and_check_vendor_action_header oui (p ++ rest) (length p) with
  | Ok o => o = length p + 4 /\ exists more, rest = 127%N :: oui ++ more
  | Err _ => forall more, rest <> 127%N :: oui ++ more
  | Panic => False
  end.
Proof. exact @strip_header_spec. Qed.
Print Assumptions C45_strip.
Theorem C45_append_strip : forall (cfg : Cfg) oui p rest, length oui = 3 -> 4 <= length rest -> exists buf,
  append_vendor_action_header oui (p ++ rest) (length p) = Ok (buf, length p + 4) /\
  strip_and_check_vendor_action_header oui buf (length p) = Ok (length p + 4).
Proof. exact @append_then_strip. Qed.
Print Assumptions C45_append_strip.
(** The offset afterwards, whatever the result (ActionState.v): it moves past whatever was read, also if the check fails. *)
Theorem C45_strip_result : forall (cfg : Cfg) oui buf off,
  match strip_state oui buf off with
  | (Ok _, o) => strip_and_check_vendor_action_header oui buf off = Ok o
  | (Err e, _) => strip_and_check_vendor_action_header oui buf off = Err e
  | (Panic, _) => strip_and_check_vendor_action_header oui buf off = Panic
  end.
Proof. exact @strip_state_result. Qed.
Print Assumptions C45_strip_result.
Theorem C45_strip_offset : forall (cfg : Cfg) oui (p rest : bytes),
  snd (strip_state oui (p ++ rest) (length p)) =
  length p + match rest with [] => 0 | c :: more => if ((c =? 127)%N && (3 <=? length more))%bool then 4 else 1 end.
Proof. exact @strip_state_offset. Qed.
Print Assumptions C45_strip_offset.
Theorem C45_offset_refuted : forall (cfg : Cfg), ~ (forall oui buf off e o, length oui = 3 -> strip_state oui buf off = (Err e, o) -> o = off).
Proof. exact @strip_failed_refuted. Qed.
Print Assumptions C45_offset_refuted.
(** So several OUIs cannot be tried one after the other with one offset variable: the second attempt looks behind the header. *)
Theorem C45_again : forall (cfg : Cfg) oui oui' (p : bytes) x more, length oui = 3 -> length x = 3 -> x <> oui ->
  let buf := p ++ 127%N :: x ++ more in
  let '(r, off) := strip_state oui buf (length p) in
  r = Err BadInput /\ off = length p + 4 /\ strip_state oui' buf off = strip_state oui' ((p ++ 127%N :: x) ++ more) (length (p ++ 127%N :: x)).
Proof. exact @strip_again. Qed.
Print Assumptions C45_again.
Theorem C45_several_refuted : forall (cfg : Cfg), ~ (forall ouis (oui p more : bytes), Forall (fun x => length x = 3) ouis -> In oui ouis ->
  fst (strip_first ouis (p ++ 127%N :: oui ++ more) (length p)) = Some oui).
Proof. exact @strip_first_refuted. Qed.
Print Assumptions C45_several_refuted.
(** Appending: result, buffer and offset afterwards; without room for the whole header the category may have been written. *)
Theorem C45_append_result : forall (cfg : Cfg) oui buf off,
  match append_state oui buf off with
  | (Ok _, b, o) => append_vendor_action_header oui buf off = Ok (b, o)
  | (Err e, _, _) => append_vendor_action_header oui buf off = Err e
  | (Panic, _, _) => append_vendor_action_header oui buf off = Panic
  end.
Proof. exact @append_state_result. Qed.
Print Assumptions C45_append_result.
Theorem C45_append_short : forall (cfg : Cfg) oui (p rest : bytes), length oui = 3 -> length rest < 4 ->
  exists e, append_state oui (p ++ rest) (length p) =
    match rest with [] => (Err e, p, length p) | _ :: more => (Err e, p ++ 127%N :: more, length p + 1) end.
Proof. exact @append_state_short. Qed.
Print Assumptions C45_append_short.
Example C45_state_ex (cfg : Cfg) :
  strip_state [1; 2; 4]%N [9; 127; 1; 2; 3; 8]%N 1 = (Err BadInput, 5) /\ strip_state [1; 2; 3]%N [9; 127; 1; 2; 3; 8]%N 1 = (Ok tt, 5) /\
  strip_first [[1; 2; 4]; [1; 2; 3]]%N [127; 1; 2; 3; 8]%N 0 = (None, 5) /\
  (exists e, append_state [1; 2; 3]%N [0; 0]%N 0 = (Err e, [127; 0]%N, 1)).
Proof. destruct cfg as [[] [] []]; repeat split; try reflexivity; eexists; reflexivity. Qed.
Example C45_ex (cfg : Cfg) :
  strip_and_check_vendor_action_header [1; 2; 3]%N [9; 127; 1; 2; 3; 8]%N 1 = Ok 5 /\
  strip_and_check_vendor_action_header [1; 2; 4]%N [9; 127; 1; 2; 3; 8]%N 1 = Err BadInput /\
  rd_vendor_action [127; 1; 2; 3; 8]%N = Ok (mkVendor [1; 2; 3]%N [8]%N, 4) /\
  rd_mesh_close [15; 3; 117; 0]%N = Ok (mkClose [117; 0]%N, 4) /\ rd_mesh_close [15; 2; 117; 0]%N = Err BadInput.
Proof. destruct cfg as [[] [] []]; repeat split; reflexivity. Qed.

(** ** C49: received frames are written again unchanged *)
Theorem C49_partial : forall (cfg : Cfg),
  MgmtReserialise Beacon 8 (fun r => with_beacon r (c_read_elements (bb_elements r))) any_body /\
  MgmtReserialise ProbeResponse 5 (fun r => with_beacon r (c_read_elements (bb_elements r))) any_body /\
  MgmtReserialise Authentication 11 (fun r => with_auth r (c_read_elements (au_elements r))) any_body /\
  MgmtReserialise AssociationRequest 0 (fun r => with_assoc_req r (c_read_elements (aq_elements r))) any_body /\
  MgmtReserialise AssociationResponse 1 (fun r => with_assoc_resp r (c_read_elements (ar_elements r))) canon_assoc_resp /\
  MgmtReserialise Deauthentication 12 (fun r => with_reason r (c_read_elements (rb_elements r))) any_body /\
  MgmtReserialise Disassociation 10 (fun r => with_reason r (c_read_elements (rb_elements r))) any_body /\
  MgmtReserialise ProbeRequest 4 (fun r => with_probe r (c_read_elements (pq_elements r))) any_body.
Proof.
  exact (fun cfg => conj beacon_re (conj probe_resp_re (conj auth_re (conj assoc_req_re (conj assoc_resp_re
    (conj deauth_re (conj disassoc_re probe_re))))))).
Qed.
Print Assumptions C49_partial.
Theorem C49_action_partial : forall (cfg : Cfg),
  MgmtReserialise RawAction 13 (fun r => r) any_body /\
  MgmtReserialise RawVendorSpecificAction 13 (fun r => with_vendor r (c_bytes (va_payload r))) any_body /\
  MgmtReserialise MeshPeeringOpen 13 (fun r => with_open r (c_read_elements (mo_elements r))) any_body /\
  MgmtReserialise MeshPeeringConfirm 13 (fun r => with_confirm r (c_read_elements (mc_elements r))) canon_confirm /\
  MgmtReserialise MeshPeeringClose 13 (fun r => with_close r (c_read_elements (ml_elements r))) any_body.
Proof. exact (fun cfg => conj raw_action_re (conj vendor_re (conj open_re (conj confirm_re close_re)))). Qed.
Print Assumptions C49_action_partial.
(** Association IDs without the two top bits set, and the protocol version, are not kept. *)
Theorem C49_aid_refuted : forall (cfg : Cfg), exists bs h r buf n, wf_bytes bs /\ rd_mgmt AssociationResponse false bs = Ok ((h, r), length bs) /\
  wr_mgmt AssociationResponse h (with_assoc_resp r (c_read_elements (ar_elements r))) false (repeat 0%N 100) = Ok (buf, n) /\
  n = length bs /\ firstn n buf <> bs.
Proof. exact @aid_bits_lost. Qed.
Print Assumptions C49_aid_refuted.
Theorem C49_version_refuted : forall (cfg : Cfg), exists bs h r buf n, wf_bytes bs /\ rd_mgmt ProbeRequest false bs = Ok ((h, r), length bs) /\
  wr_mgmt ProbeRequest h (with_probe r (c_read_elements (pq_elements r))) false (repeat 0%N 100) = Ok (buf, n) /\
  n = length bs /\ firstn n buf <> bs.
Proof. exact @version_lost. Qed.
Print Assumptions C49_version_refuted.
Example C49_ex (cfg : Cfg) : let body := [1; 4; 0; 0; 5; 192; 1; 1; 130]%N in
  canon_assoc_resp body /\ exists x, rd_mgmt AssociationResponse true (enc_frame true (enc_mgmt 1 (hdr 0 None) body)) = Ok x.
Proof. split; [right; vm_compute; discriminate|]. eexists. destruct cfg as [[] [] []]; vm_compute; reflexivity. Qed.
