(** Management frames: /repo/src/frames/mgmt_frame. *)
From Verif Require Import Base Bits Layouts Enums Common Crc Elements ElementTypes.

(** ** Header, mgmt_frame/header.rs *)
(** header.rs:12-25. Addresses are six bytes, [ht_control] four bytes, [mh_flags] the raw [u8] of
    [FCFFlags], [mh_seq] the raw [u16] of [SequenceControl]. *)
Record MgmtHeader := mkMH {
  mh_flags : N; mh_duration : N; mh_ra : bytes; mh_ta : bytes; mh_bssid : bytes; mh_seq : N;
  mh_ht : option bytes
}.
(** header.rs:27-33 *)
Definition mh_length (h : MgmtHeader) : nat := match mh_ht h with Some _ => 28 | None => 24 end.

(** ** Raw action bodies, body/action/mod.rs *)
(** body/action/mod.rs:56-59 *)
Record RawActionBody := mkRA { ra_category : CategoryCode; ra_payload : bytes }.
(** derived [PartialEq] of the enums *)
Definition category_eqb (a b : CategoryCode) : bool :=
  match a, b with
  | Cat_Mesh, Cat_Mesh | Cat_Multihop, Cat_Multihop | Cat_SelfProtected, Cat_SelfProtected
  | Cat_VendorSpecific, Cat_VendorSpecific => true
  | Cat_Unknown m, Cat_Unknown n => (m =? n)%N
  | _, _ => false
  end.
Definition self_prot_eqb (a b : SelfProtectedActionCode) : bool :=
  match a, b with
  | Sp_MeshPeeringOpen, Sp_MeshPeeringOpen | Sp_MeshPeeringConfirm, Sp_MeshPeeringConfirm
  | Sp_MeshPeeringClose, Sp_MeshPeeringClose | Sp_MeshGroupKeyInform, Sp_MeshGroupKeyInform
  | Sp_MeshGroupKeyAcknowledge, Sp_MeshGroupKeyAcknowledge => true
  | Sp_Unknown m, Sp_Unknown n => (m =? n)%N
  | _, _ => false
  end.
(** [==] on byte arrays *)
Fixpoint arr_eqb (a b : bytes) : bool :=
  match a, b with
  | [], [] => true
  | x :: a', y :: b' => (x =? y)%N && arr_eqb a' b'
  | _, _ => false
  end.

(** ** Body records; [E] is the type of the element container *)
(** body/beacon.rs:20-32 *)
Record BeaconLikeBody (E : Type) := mkBeacon {
  bb_timestamp : N; bb_interval : N; bb_capabilities : N; bb_elements : E }.
(** body/auth.rs:19-25 *)
Record AuthenticationBody (E : Type) := mkAuth {
  au_algorithm : IEEE80211AuthenticationAlgorithmNumber; au_sequence : N;
  au_status : IEEE80211StatusCode; au_elements : E }.
(** body/assoc.rs:16-21 *)
Record AssociationRequestBody (E : Type) := mkAssocReq {
  aq_capabilities : N; aq_listen_interval : N; aq_elements : E }.
(** body/assoc.rs:78-84 *)
Record AssociationResponseBody (E : Type) := mkAssocResp {
  ar_capabilities : N; ar_status : IEEE80211StatusCode; ar_aid : option AssociationID; ar_elements : E }.
(** body/deauth.rs:13-19, body/disassoc.rs:13-19 (two types of the same shape) *)
Record ReasonBody (E : Type) := mkReason { rb_reason : IEEE80211Reason; rb_elements : E }.
(** body/probe.rs:15-19 *)
Record ProbeRequestBody (E : Type) := mkProbeReq { pq_elements : E }.
(** body/action/vendor.rs:15-19; [P] is the type of the payload *)
Record VendorActionBody (P : Type) := mkVendor { va_oui : bytes; va_payload : P }.
(** body/action/self_protected.rs:30-34 *)
Record MeshOpenBody (E : Type) := mkOpen { mo_capabilities : N; mo_elements : E }.
(** body/action/self_protected.rs:116-121 *)
Record MeshConfirmBody (E : Type) := mkConfirm {
  mc_capabilities : N; mc_aid : AssociationID; mc_elements : E }.
(** body/action/self_protected.rs:210-213 *)
Record MeshCloseBody (E : Type) := mkClose { ml_elements : E }.
Arguments mkBeacon {E}. Arguments bb_timestamp {E}. Arguments bb_interval {E}.
Arguments bb_capabilities {E}. Arguments bb_elements {E}.
Arguments mkAuth {E}. Arguments au_algorithm {E}. Arguments au_sequence {E}.
Arguments au_status {E}. Arguments au_elements {E}.
Arguments mkAssocReq {E}. Arguments aq_capabilities {E}. Arguments aq_listen_interval {E}. Arguments aq_elements {E}.
Arguments mkAssocResp {E}. Arguments ar_capabilities {E}. Arguments ar_status {E}. Arguments ar_aid {E}. Arguments ar_elements {E}.
Arguments mkReason {E}. Arguments rb_reason {E}. Arguments rb_elements {E}.
Arguments mkProbeReq {E}. Arguments pq_elements {E}.
Arguments mkVendor {P}. Arguments va_oui {P}. Arguments va_payload {P}.
Arguments mkOpen {E}. Arguments mo_capabilities {E}. Arguments mo_elements {E}.
Arguments mkConfirm {E}. Arguments mc_capabilities {E}. Arguments mc_aid {E}. Arguments mc_elements {E}.
Arguments mkClose {E}. Arguments ml_elements {E}.

Section Mgmt.
Context {cfg : Cfg}.

(** header.rs:35-64; the context are the flags *)
Definition rd_mgmt_header (flags : N) : reader MgmtHeader := fun from =>
  '(duration, off) <- gread (rd_le 2) from 0 ;;
  '(ra, off) <- gread (rd_bytes 6) from off ;;
  '(ta, off) <- gread (rd_bytes 6) from off ;;
  '(bssid, off) <- gread (rd_bytes 6) from off ;;
  '(seq, off) <- gread (rd_le 2) from off ;;
  if order flags then
    '(ht, off) <- gread (rd_bytes 4) from off ;;
    Ok (mkMH flags duration ra ta bssid seq (Some ht), off)
  else Ok (mkMH flags duration ra ta bssid seq None, off).
(** header.rs:65-85 *)
Definition wr_mgmt_header (h : MgmtHeader) : writer :=
  wseq ([wr_le 2 (mh_duration h); wr_bytes (mh_ra h); wr_bytes (mh_ta h); wr_bytes (mh_bssid h); wr_le 2 (mh_seq h)]
        ++ match mh_ht h with Some ht => [wr_bytes ht] | None => [] end).

(** A value to be written with [MeasureWith<()>] and [TryIntoCtx]: element containers and
    payloads are generic parameters of the bodies. *)
Record Container := mkC { c_measure : nat; c_write : writer }.
(** [ReadElements], elements/mod.rs:286-302 *)
Definition c_read_elements (bs : bytes) : Container := mkC (length bs) (wr_elements bs).
(** element chains *)
Definition c_chain (c : Chain) : Container := mkC (chain_measure c) (wr_chain c).
(** [Empty], common/mod.rs:142-159 *)
Definition c_empty : Container := mkC 0 (fun buf => Ok (buf, 0)).
(** [&[u8]] *)
Definition c_bytes (bs : bytes) : Container := mkC (length bs) (wr_bytes bs).

(** A management frame body type: [W] is written, [R] is read (the default parameter). *)
Record BodyType (W R : Type) := mkBT {
  bt_subtype : ManagementFrameSubtype;
  bt_action_matches : RawActionBody -> Res serr bool;
  bt_measure : W -> nat;
  bt_write : W -> writer;
  bt_read : reader R
}.
Global Arguments mkBT {W R}.
Global Arguments bt_subtype {W R}.
Global Arguments bt_action_matches {W R}.
Global Arguments bt_measure {W R}.
Global Arguments bt_write {W R}.
Global Arguments bt_read {W R}.
(** body/mod.rs:32-34: the default of [read_action_body_matches] *)
Definition no_action : RawActionBody -> Res serr bool := fun _ => Ok false.

(** body/beacon.rs:96-118 *)
Definition rd_beacon : reader (BeaconLikeBody bytes) := fun from =>
  '(timestamp, off) <- gread (rd_le 8) from 0 ;;
  '(interval, off) <- gread (rd_le 2) from off ;;
  '(capabilities, off) <- gread (rd_le 2) from off ;;
  '(elements, off) <- gread rd_elements from off ;;
  Ok (mkBeacon timestamp interval capabilities elements, off).
(** body/beacon.rs:89-95, 119-137 *)
Definition beacon_like (s : ManagementFrameSubtype) : BodyType (BeaconLikeBody Container) (BeaconLikeBody bytes) :=
  mkBT s no_action
    (fun b => 12 + c_measure (bb_elements b))
    (fun b => wseq [wr_le 8 (bb_timestamp b); wr_le 2 (bb_interval b); wr_le 2 (bb_capabilities b); c_write (bb_elements b)])
    rd_beacon.
(** body/beacon.rs:142-143, body/probe.rs:60-61, body/mod.rs:60-69 *)
Definition Beacon := beacon_like Mg_Beacon.
Definition ProbeResponse := beacon_like Mg_ProbeResponse.

(** body/auth.rs:32-57 *)
Definition rd_auth : reader (AuthenticationBody bytes) := fun from =>
  '(algorithm, off) <- gread (rd_le 2) from 0 ;;
  '(sequence, off) <- gread (rd_le 2) from off ;;
  '(status, off) <- gread (rd_le 2) from off ;;
  '(elements, off) <- gread rd_elements from off ;;
  Ok (mkAuth (auth_algo_from_bits algorithm) sequence (status_from_bits status) elements, off).
(** body/auth.rs:58-87 *)
Definition Authentication : BodyType (AuthenticationBody Container) (AuthenticationBody bytes) :=
  mkBT Mg_Authentication no_action
    (fun b => 6 + c_measure (au_elements b))
    (fun b => wseq [wr_le 2 (auth_algo_into_bits (au_algorithm b)); wr_le 2 (au_sequence b);
                    wr_le 2 (status_into_bits (au_status b)); c_write (au_elements b)])
    rd_auth.

(** body/assoc.rs:28-48 *)
Definition rd_assoc_req : reader (AssociationRequestBody bytes) := fun from =>
  '(capabilities, off) <- gread (rd_le 2) from 0 ;;
  '(listen, off) <- gread (rd_le 2) from off ;;
  '(elements, off) <- gread rd_elements from off ;;
  Ok (mkAssocReq capabilities listen elements, off).
(** body/assoc.rs:49-73 *)
Definition AssociationRequest : BodyType (AssociationRequestBody Container) (AssociationRequestBody bytes) :=
  mkBT Mg_AssociationRequest no_action
    (fun b => 4 + c_measure (aq_elements b))
    (fun b => wseq [wr_le 2 (aq_capabilities b); wr_le 2 (aq_listen_interval b); c_write (aq_elements b)])
    rd_assoc_req.
(** body/assoc.rs:90-123 *)
Definition rd_assoc_resp : reader (AssociationResponseBody bytes) := fun from =>
  '(capabilities, off) <- gread (rd_le 2) from 0 ;;
  '(status, off) <- gread (rd_le 2) from off ;;
  '(aid, off) <- gread (rd_le 2) from off ;;
  aid <- (if (aid =? 0)%N then Ok None
          else match aid_new_checked aid with Some a => Ok (Some a) | None => Err BadInput end) ;;
  '(elements, off) <- gread rd_elements from off ;;
  Ok (mkAssocResp capabilities (status_from_bits status) aid elements, off).
(** body/assoc.rs:124-155 *)
Definition AssociationResponse : BodyType (AssociationResponseBody Container) (AssociationResponseBody bytes) :=
  mkBT Mg_AssociationResponse no_action
    (fun b => 6 + c_measure (ar_elements b))
    (fun b => wseq [wr_le 2 (ar_capabilities b); wr_le 2 (status_into_bits (ar_status b));
                    wr_le 2 (match ar_aid b with Some a => aid_into_bits a | None => 0%N end); c_write (ar_elements b)])
    rd_assoc_resp.

(** body/deauth.rs:26-43, body/disassoc.rs:33-50 *)
Definition rd_reason : reader (ReasonBody bytes) := fun from =>
  '(reason, off) <- gread (rd_le 2) from 0 ;;
  '(elements, off) <- gread rd_elements from off ;;
  Ok (mkReason (reason_from_bits reason) elements, off).
(** body/deauth.rs:44-63, body/disassoc.rs:26-32, 51-63 *)
Definition reason_body (s : ManagementFrameSubtype) : BodyType (ReasonBody Container) (ReasonBody bytes) :=
  mkBT s no_action
    (fun b => 2 + c_measure (rb_elements b))
    (fun b => wseq [wr_le 2 (reason_into_bits (rb_reason b)); c_write (rb_elements b)])
    rd_reason.
Definition Deauthentication := reason_body Mg_Deauthentication.
Definition Disassociation := reason_body Mg_Disassociation.

(** body/probe.rs:38-51 *)
Definition rd_probe_req : reader (ProbeRequestBody bytes) := fun from =>
  '(elements, off) <- gread rd_elements from 0 ;;
  Ok (mkProbeReq elements, off).
(** body/probe.rs:33-37, 52-59 *)
Definition ProbeRequest : BodyType (ProbeRequestBody Container) (ProbeRequestBody bytes) :=
  mkBT Mg_ProbeRequest no_action
    (fun b => c_measure (pq_elements b))
    (fun b => c_write (pq_elements b))
    rd_probe_req.

(** The methods [length_in_bytes] of the bodies with [ReadElements]: body/beacon.rs:35-40,
    body/auth.rs:28-30, body/assoc.rs:24-26, 86-88, body/deauth.rs:22-24, body/disassoc.rs:22-24,
    body/probe.rs:22-24 *)
Definition beacon_length (b : BeaconLikeBody bytes) : nat := 8 + 2 + 2 + length (bb_elements b).
Definition auth_length (b : AuthenticationBody bytes) : nat := 6 + length (au_elements b).
Definition assoc_req_length (b : AssociationRequestBody bytes) : nat := 4 + length (aq_elements b).
Definition assoc_resp_length (b : AssociationResponseBody bytes) : nat := 6 + length (ar_elements b).
Definition reason_length (b : ReasonBody bytes) : nat := 2 + length (rb_elements b).
Definition probe_req_length (b : ProbeRequestBody bytes) : nat := length (pq_elements b).
(** body/beacon.rs:42-47, body/probe.rs:26-31 *)
Definition beacon_ssid (b : BeaconLikeBody bytes) : Res serr (option bytes) := get_first_element SSIDElement (bb_elements b).
Definition probe_ssid (b : ProbeRequestBody bytes) : Res serr (option bytes) := get_first_element SSIDElement (pq_elements b).
(** body/beacon.rs:51-53, in microseconds; [TU] is 1024 microseconds, common/mod.rs *)
Definition beacon_interval_us {E} (b : BeaconLikeBody E) : N := (bb_interval b * 1024)%N.

(** ** Action bodies *)
(** body/action/mod.rs:71-86: the reported size excludes the payload *)
Definition rd_raw_action : reader RawActionBody := fun from =>
  '(category, off) <- gread rd_u8 from 0 ;;
  payload <- slice_from from off ;;
  Ok (mkRA (category_from_bits category) payload, off).
(** body/action/mod.rs:87-102, body/mod.rs:70-75 *)
Definition RawAction : BodyType RawActionBody RawActionBody :=
  mkBT Mg_Action (fun _ => Ok true)
    (fun b => 1 + length (ra_payload b))
    (fun b => wseq [wr_u8 (category_into_bits (ra_category b)); wr_bytes (ra_payload b)])
    rd_raw_action.
(** body/action/mod.rs:62-69 *)
Definition is_vendor_and_matches (b : RawActionBody) (oui : bytes) : Res serr bool :=
  if category_eqb (ra_category b) Cat_VendorSpecific then
    o <- res_ok (pread (rd_bytes 3) (ra_payload b) 0) ;;
    Ok (match o with Some read_oui => arr_eqb read_oui oui | None => false end)
  else Ok false.

(** body/action/vendor.rs:73-81 *)
Definition append_vendor_action_header (oui buf : bytes) (off : nat) : Res serr (bytes * nat) :=
  wseq_from [wr_u8 (category_into_bits Cat_VendorSpecific); wr_bytes oui] buf off.
(** body/action/vendor.rs:83-101: the new offset *)
Definition strip_and_check_vendor_action_header (oui buf : bytes) (off : nat) : Res serr nat :=
  '(category, off) <- gread rd_u8 buf off ;;
  if negb (category_eqb (category_from_bits category) Cat_VendorSpecific) then Err BadInput
  else
    '(read_oui, off) <- gread (rd_bytes 3) buf off ;;
    if negb (arr_eqb read_oui oui) then Err BadInput else Ok off.
(** body/action/vendor.rs:103 *)
Definition VENDOR_SPECIFIC_ACTION_HEADER_LENGTH : nat := 4.
(** body/action/vendor.rs:20-44 *)
Definition rd_vendor_action : reader (VendorActionBody bytes) := fun from =>
  '(category, off) <- gread rd_u8 from 0 ;;
  if negb (category_eqb (category_from_bits category) Cat_VendorSpecific) then Err BadInput
  else
    '(oui, off) <- gread (rd_bytes 3) from off ;;
    payload <- slice_from from off ;;
    Ok (mkVendor oui payload, off).
(** body/action/vendor.rs:45-68; body/mod.rs:76-81 *)
Definition RawVendorSpecificAction : BodyType (VendorActionBody Container) (VendorActionBody bytes) :=
  mkBT Mg_Action
    (fun a => Ok (category_eqb (ra_category a) Cat_VendorSpecific))
    (fun b => 3 + c_measure (va_payload b))
    (fun b buf =>
       '(buf, off) <- append_vendor_action_header (va_oui b) buf 0 ;;
       gwrite (c_write (va_payload b)) buf off)
    rd_vendor_action.

(** body/action/self_protected.rs:102-109, 196-203, 274-281 *)
Definition self_protected_matches (code : SelfProtectedActionCode) (a : RawActionBody) : Res serr bool :=
  if category_eqb (ra_category a) Cat_SelfProtected then
    s <- res_ok (pread rd_u8 (ra_payload a) 0) ;;
    Ok (match s with Some subtype => (subtype =? self_prot_into_bits code)%N | None => false end)
  else Ok false.
(** body/action/self_protected.rs:41-55, 128-142, 220-234: the offset behind the action code *)
Definition rd_self_protected_header (code : SelfProtectedActionCode) (from : bytes) : Res serr nat :=
  '(category, off) <- gread rd_u8 from 0 ;;
  if negb (category_eqb (category_from_bits category) Cat_SelfProtected) then Err BadInput
  else
    '(action, off) <- gread rd_u8 from off ;;
    if negb (self_prot_eqb (self_prot_from_bits action) code) then Err BadInput else Ok off.
Definition wr_self_protected_header (code : SelfProtectedActionCode) : list writer :=
  [wr_u8 (category_into_bits Cat_SelfProtected); wr_u8 (self_prot_into_bits code)].
(** body/action/self_protected.rs:36-70 *)
Definition rd_mesh_open : reader (MeshOpenBody bytes) := fun from =>
  off <- rd_self_protected_header Sp_MeshPeeringOpen from ;;
  '(capabilities, off) <- gread (rd_le 2) from off ;;
  '(elements, off) <- gread rd_elements from off ;;
  Ok (mkOpen capabilities elements, off).
(** body/action/self_protected.rs:71-110 *)
Definition MeshPeeringOpen : BodyType (MeshOpenBody Container) (MeshOpenBody bytes) :=
  mkBT Mg_Action (self_protected_matches Sp_MeshPeeringOpen)
    (fun b => 1 + 2 + c_measure (mo_elements b))
    (fun b => wseq (wr_self_protected_header Sp_MeshPeeringOpen ++ [wr_le 2 (mo_capabilities b); c_write (mo_elements b)]))
    rd_mesh_open.
(** body/action/self_protected.rs:123-164 *)
Definition rd_mesh_confirm : reader (MeshConfirmBody bytes) := fun from =>
  off <- rd_self_protected_header Sp_MeshPeeringConfirm from ;;
  '(capabilities, off) <- gread (rd_le 2) from off ;;
  '(aid, off) <- gread (rd_le 2) from off ;;
  match aid_new_checked aid with
  | None => Err BadInput
  | Some aid =>
      '(elements, off) <- gread rd_elements from off ;;
      Ok (mkConfirm capabilities aid elements, off)
  end.
(** body/action/self_protected.rs:165-204 *)
Definition MeshPeeringConfirm : BodyType (MeshConfirmBody Container) (MeshConfirmBody bytes) :=
  mkBT Mg_Action (self_protected_matches Sp_MeshPeeringConfirm)
    (fun b => 1 + 2 + 2 + c_measure (mc_elements b))
    (fun b => wseq (wr_self_protected_header Sp_MeshPeeringConfirm ++
                    [wr_le 2 (mc_capabilities b); wr_le 2 (aid_into_bits (mc_aid b)); c_write (mc_elements b)]))
    rd_mesh_confirm.
(** body/action/self_protected.rs:215-245 *)
Definition rd_mesh_close : reader (MeshCloseBody bytes) := fun from =>
  off <- rd_self_protected_header Sp_MeshPeeringClose from ;;
  '(elements, off) <- gread rd_elements from off ;;
  Ok (mkClose elements, off).
(** body/action/self_protected.rs:247-282 *)
Definition MeshPeeringClose : BodyType (MeshCloseBody Container) (MeshCloseBody bytes) :=
  mkBT Mg_Action (self_protected_matches Sp_MeshPeeringClose)
    (fun b => 1 + c_measure (ml_elements b))
    (fun b => wseq (wr_self_protected_header Sp_MeshPeeringClose ++ [c_write (ml_elements b)]))
    rd_mesh_close.

(** ** Frames, mgmt_frame/mod.rs *)
(** mod.rs:66-70 *)
Definition mgmt_measure {W R} (t : BodyType W R) (h : MgmtHeader) (b : W) (with_fcs : bool) : nat :=
  mh_length h + bt_measure t b + if with_fcs then 4 else 0.
(** mod.rs:71-96: header, body and the size *)
Definition rd_mgmt {W R} (t : BodyType W R) (with_fcs : bool) : reader (MgmtHeader * R) := fun from =>
  from <- (if with_fcs then strip_and_validate_fcs from else Ok from) ;;
  '(fcf, off) <- gread (rd_le 2) from 0 ;;
  match fcf_frame_type fcf with
  | FT_Management _ =>
      '(header, off) <- gread (rd_mgmt_header (fcf_flags fcf)) from off ;;
      '(body, off) <- gread (bt_read t) from off ;;
      Ok ((header, body), off)
  | _ => Err BadInput
  end.
(** mod.rs:97-120 *)
Definition wr_mgmt {W R} (t : BodyType W R) (h : MgmtHeader) (b : W) (with_fcs : bool) : writer := fun buf =>
  '(buf, off) <- wseq [wr_le 2 (fcf_make (FT_Management (bt_subtype t)) (mh_flags h));
                       wr_mgmt_header h; bt_write t b] buf ;;
  if with_fcs then attach_fcs buf off else Ok (buf, off).

(** ** [DynamicManagementFrame], mgmt_frame/mod.rs:167-204; the state is the buffer with the
    offset *)
(** mod.rs:175-181; the context is [bool::default()], no FCS *)
Definition dyn_new (frame : bool -> writer) (buf : bytes) : Res serr (bytes * nat) :=
  pwrite (frame false) buf 0.
(** mod.rs:53-58 *)
Definition into_dynamic {W R} (t : BodyType W R) (h : MgmtHeader) (b : W) (buf : bytes) : Res serr (bytes * nat) :=
  dyn_new (wr_mgmt t h b) buf.
(** mod.rs:185-189 *)
Definition dyn_add (e : Elem) (st : bytes * nat) : Res serr (bytes * nat) :=
  gwrite (wr_wrapped e) (fst st) (snd st).
(** A failing [add_element] keeps the offset; the writer was given only the part of the buffer
    behind the offset and may have changed it in any way; what exactly it may have stored there is in
    Stores.v. *)
Inductive dyn_step : bytes * nat -> Elem * bool -> bytes * nat -> Prop :=
| dyn_added : forall st e st', dyn_add e st = Ok st' -> dyn_step st (e, true) st'
| dyn_failed : forall buf off e err junk, dyn_add e (buf, off) = Err err ->
    length junk = length buf - off -> dyn_step (buf, off) (e, false) (firstn off buf ++ junk, off).
(** a sequence of calls with their outcomes *)
Inductive dyn_steps : bytes * nat -> list (Elem * bool) -> bytes * nat -> Prop :=
| dyn_done : forall st, dyn_steps st [] st
| dyn_next : forall st c st' cs st'', dyn_step st c st' -> dyn_steps st' cs st'' -> dyn_steps st (c :: cs) st''.
(** mod.rs:195-203; the checksum is written in native byte order *)
Definition dyn_finish (with_fcs : bool) (st : bytes * nat) : Res serr (bytes * nat) :=
  let '(buf, off) := st in
  if with_fcs then
    covered <- slice_to buf off ;;
    gwrite (wr_ne 4 (crc32 covered)) buf off
  else Ok (buf, off).
End Mgmt.
