(** The management frame formats of IEEE 802.11-2020, 9.3.3, independent of the reading and
    writing code. *)
From Verif Require Import Base SpecBase Crc Enums Common Elements SpecElements SpecElementTypes Mgmt.

Definition address (a : bytes) : Prop := length a = 6 /\ wf_bytes a.

(** frame control field: protocol version 0, type, subtype, flags *)
Definition enc_fcf (type subtype flags : N) : bytes := [4 * type + 16 * subtype; flags]%N.

(** The values a header can have; the HT control field is present exactly if the order flag
    (bit 7 of the flags) is set. *)
Definition ok_mgmt_header (h : MgmtHeader) : Prop :=
  u8 (mh_flags h) /\ u16 (mh_duration h) /\ address (mh_ra h) /\ address (mh_ta h) /\ address (mh_bssid h) /\
  u16 (mh_seq h) /\
  match mh_ht h with
  | Some ht => N.testbit (mh_flags h) 7 = true /\ length ht = 4 /\ wf_bytes ht
  | None => N.testbit (mh_flags h) 7 = false
  end.
Definition enc_mgmt_header (h : MgmtHeader) : bytes :=
  le_bytes 2 (mh_duration h) ++ mh_ra h ++ mh_ta h ++ mh_bssid h ++ le_bytes 2 (mh_seq h) ++
  match mh_ht h with Some ht => ht | None => [] end.
(** a complete frame, with or without frame check sequence *)
Definition enc_frame (with_fcs : bool) (mpdu : bytes) : bytes :=
  if with_fcs then mpdu ++ le_bytes 4 (crc32 mpdu) else mpdu.
Definition enc_mgmt (subtype : N) (h : MgmtHeader) (body : bytes) : bytes :=
  enc_fcf 0 subtype (mh_flags h) ++ enc_mgmt_header h ++ body.

(** ** Bodies: admissible values and fixed fields *)
Definition ok_beacon {E} (b : BeaconLikeBody E) : Prop :=
  u64 (bb_timestamp b) /\ u16 (bb_interval b) /\ u16 (bb_capabilities b).
Definition fixed_beacon {E} (b : BeaconLikeBody E) : bytes :=
  le_bytes 8 (bb_timestamp b) ++ le_bytes 2 (bb_interval b) ++ le_bytes 2 (bb_capabilities b).
Definition with_beacon {E F} (b : BeaconLikeBody E) (e : F) : BeaconLikeBody F :=
  mkBeacon (bb_timestamp b) (bb_interval b) (bb_capabilities b) e.

Definition ok_auth {E} (b : AuthenticationBody E) : Prop :=
  auth_algo_from_bits (auth_algo_into_bits (au_algorithm b)) = au_algorithm b /\ u16 (auth_algo_into_bits (au_algorithm b)) /\
  u16 (au_sequence b) /\
  status_from_bits (status_into_bits (au_status b)) = au_status b /\ u16 (status_into_bits (au_status b)).
Definition fixed_auth {E} (b : AuthenticationBody E) : bytes :=
  le_bytes 2 (auth_algo_into_bits (au_algorithm b)) ++ le_bytes 2 (au_sequence b) ++ le_bytes 2 (status_into_bits (au_status b)).
Definition with_auth {E F} (b : AuthenticationBody E) (e : F) : AuthenticationBody F :=
  mkAuth (au_algorithm b) (au_sequence b) (au_status b) e.

Definition ok_assoc_req {E} (b : AssociationRequestBody E) : Prop := u16 (aq_capabilities b) /\ u16 (aq_listen_interval b).
Definition fixed_assoc_req {E} (b : AssociationRequestBody E) : bytes :=
  le_bytes 2 (aq_capabilities b) ++ le_bytes 2 (aq_listen_interval b).
Definition with_assoc_req {E F} (b : AssociationRequestBody E) (e : F) : AssociationRequestBody F :=
  mkAssocReq (aq_capabilities b) (aq_listen_interval b) e.

(** association IDs 1 to 2007, transmitted with the two most significant bits set *)
Definition ok_aid (a : AssociationID) : Prop := (49152 + 1 <= a <= 49152 + 2007)%N.
Definition ok_assoc_resp {E} (b : AssociationResponseBody E) : Prop :=
  u16 (ar_capabilities b) /\
  status_from_bits (status_into_bits (ar_status b)) = ar_status b /\ u16 (status_into_bits (ar_status b)) /\
  match ar_aid b with Some a => ok_aid a | None => True end.
Definition fixed_assoc_resp {E} (b : AssociationResponseBody E) : bytes :=
  le_bytes 2 (ar_capabilities b) ++ le_bytes 2 (status_into_bits (ar_status b)) ++
  le_bytes 2 (match ar_aid b with Some a => a | None => 0%N end).
Definition with_assoc_resp {E F} (b : AssociationResponseBody E) (e : F) : AssociationResponseBody F :=
  mkAssocResp (ar_capabilities b) (ar_status b) (ar_aid b) e.

Definition ok_reason {E} (b : ReasonBody E) : Prop :=
  reason_from_bits (reason_into_bits (rb_reason b)) = rb_reason b /\ u16 (reason_into_bits (rb_reason b)).
Definition fixed_reason {E} (b : ReasonBody E) : bytes := le_bytes 2 (reason_into_bits (rb_reason b)).
Definition with_reason {E F} (b : ReasonBody E) (e : F) : ReasonBody F := mkReason (rb_reason b) e.

Definition ok_any {A} (b : A) : Prop := True.
Definition fixed_probe {E} (b : ProbeRequestBody E) : bytes := [].
Definition with_probe {E F} (b : ProbeRequestBody E) (e : F) : ProbeRequestBody F := mkProbeReq e.

Definition ok_raw_action (b : RawActionBody) : Prop :=
  category_from_bits (category_into_bits (ra_category b)) = ra_category b /\ u8 (category_into_bits (ra_category b)).
Definition fixed_raw_action (b : RawActionBody) : bytes := [category_into_bits (ra_category b)].
Definition with_raw_action (b : RawActionBody) (p : bytes) : RawActionBody := mkRA (ra_category b) p.

Definition ok_vendor {P} (b : VendorActionBody P) : Prop := length (va_oui b) = 3 /\ wf_bytes (va_oui b).
Definition fixed_vendor {P} (b : VendorActionBody P) : bytes := 127%N :: va_oui b.
Definition with_vendor {P Q} (b : VendorActionBody P) (p : Q) : VendorActionBody Q := mkVendor (va_oui b) p.

(** self-protected action frames: category 15 and the action *)
Definition ok_open {E} (b : MeshOpenBody E) : Prop := u16 (mo_capabilities b).
Definition fixed_open {E} (b : MeshOpenBody E) : bytes := [15; 1]%N ++ le_bytes 2 (mo_capabilities b).
Definition with_open {E F} (b : MeshOpenBody E) (e : F) : MeshOpenBody F := mkOpen (mo_capabilities b) e.
Definition ok_confirm {E} (b : MeshConfirmBody E) : Prop := u16 (mc_capabilities b) /\ ok_aid (mc_aid b).
Definition fixed_confirm {E} (b : MeshConfirmBody E) : bytes :=
  [15; 2]%N ++ le_bytes 2 (mc_capabilities b) ++ le_bytes 2 (mc_aid b).
Definition with_confirm {E F} (b : MeshConfirmBody E) (e : F) : MeshConfirmBody F := mkConfirm (mc_capabilities b) (mc_aid b) e.
Definition fixed_close {E} (b : MeshCloseBody E) : bytes := [15; 3]%N.
Definition with_close {E F} (b : MeshCloseBody E) (e : F) : MeshCloseBody F := mkClose e.

(** Bodies whose association ID field (at offset 4) has its two most significant bits set, as the
    standard prescribes; 0 if there is none. *)
Definition aid_field (body : bytes) : N := le_val (firstn 2 (skipn 4 body)).
Definition canon_assoc_resp (body : bytes) : Prop := aid_field body = 0%N \/ (49152 <= aid_field body)%N.
Definition canon_confirm (body : bytes) : Prop := (49152 <= aid_field body)%N.

Section Spec.
Context {cfg : Cfg}.

(** A frame type: subtype number, fixed fields [fixed w], then the bytes of the container
    [cont w]; reading gives [conv w bytes]. [empty_ok] says whether an empty container is read
    by every scroll version. *)
Definition MgmtRoundTrip {W R} (t : BodyType W R) (subtype : N) (ok : W -> Prop) (fixed : W -> bytes)
    (cont : W -> Container) (conv : W -> bytes -> R) (empty_ok : Prop) : Prop :=
  forall (h : MgmtHeader) (w : W) (es : bytes) (fcs : bool),
    ok_mgmt_header h -> ok w -> wf_bytes es -> Writes (c_write (cont w)) es ->
    let frame := enc_frame fcs (enc_mgmt subtype h (fixed w ++ es)) in
    Writes (wr_mgmt t h w fcs) frame /\
    (* a buffer of exactly the size of the frame is enough *)
    (fcs = true \/ (es <> [] /\ WritesT (c_write (cont w)) es) -> WritesT (wr_mgmt t h w fcs) frame) /\
    (empty_ok \/ end_ok es -> pread (rd_mgmt t fcs) frame 0 = Ok (h, conv w es)).

(** the announced size misses the written size by [missing] bytes *)
Definition MgmtMeasure {W R} (t : BodyType W R) (subtype : N) (ok : W -> Prop) (fixed : W -> bytes)
    (cont : W -> Container) (missing : nat) : Prop :=
  forall h w es fcs, ok_mgmt_header h -> ok w -> c_measure (cont w) = length es ->
    mgmt_measure t h w fcs + missing = length (enc_frame fcs (enc_mgmt subtype h (fixed w ++ es))).

(** Whatever is read was there: the bytes are a management frame (of any subtype and protocol
    version, the first byte [b0] is not compared with the requested type) with exactly the header,
    the fixed fields and the variable part of the result. [canon] excludes bodies with bits the
    fixed fields do not keep. *)
Definition MgmtLossless {W R} (t : BodyType W R) (ok : R -> Prop) (fixed : R -> bytes)
    (rest : R -> bytes) (canon : bytes -> Prop) : Prop :=
  forall (fcs : bool) (bs : bytes) (h : MgmtHeader) (r : R) (n : nat),
    wf_bytes bs -> rd_mgmt t fcs bs = Ok ((h, r), n) ->
    ok_mgmt_header h /\
    exists b0 body, ((b0 / 4) mod 4 = 0)%N /\ (b0 < 256)%N /\
      bs = enc_frame fcs ([b0; mh_flags h] ++ enc_mgmt_header h ++ body) /\
      (canon body -> ok r /\ body = fixed r ++ rest r).

(** A received frame of the right type and protocol version, read and written again (the elements
    as received), is the same frame. *)
Definition MgmtReserialise {W R} (t : BodyType W R) (subtype : N) (back : R -> W) (canon : bytes -> Prop) : Prop :=
  forall (fcs : bool) (flags : N) (rest body : bytes) (h : MgmtHeader) (r : R) (n : nat),
    let bs := enc_frame fcs (enc_fcf 0 subtype flags ++ rest) in
    wf_bytes bs -> rd_mgmt t fcs bs = Ok ((h, r), n) ->
    rest = enc_mgmt_header h ++ body -> canon body ->
    Writes (wr_mgmt t h (back r) fcs) bs.
Definition any_body (body : bytes) : Prop := True.

(** Reading never panics without FCS; with FCS exactly if there is no room for one. The reported
    size lies inside the input. *)
Definition MgmtTotal {W R} (t : BodyType W R) : Prop :=
  (forall bs, rd_mgmt t false bs <> Panic) /\
  (forall bs, wf_bytes bs -> (rd_mgmt t true bs = Panic <-> length bs < 4)) /\
  (forall fcs bs x n, rd_mgmt t fcs bs = Ok (x, n) -> n <= length bs).

(** An action body type recognised by the bytes [prefix] in front of it: what
    [read_action_body_matches] says about a received action frame agrees with the bytes, and only
    bodies with these bytes are ever parsed. *)
Definition ActionMatch {W R} (t : BodyType W R) (prefix : bytes) : Prop :=
  bt_subtype t = Mg_Action /\
  forall b0 rest, exists b,
    (* the received action frame, as read for matching *)
    rd_raw_action (b0 :: rest) = Ok (mkRA (category_from_bits b0) rest, 1) /\
    bt_action_matches t (mkRA (category_from_bits b0) rest) = Ok b /\
    (b = true <-> exists more, b0 :: rest = prefix ++ more) /\
    (b = false -> bt_read t (b0 :: rest) = Err BadInput \/ bt_read t (b0 :: rest) = Err TooBig \/ bt_read t (b0 :: rest) = Err BadOffset).

(** ** Frames built step by step *)
(** the value of an [add_element] call is an element that fits into its length field *)
Definition call_element (c : Elem * bool) (raw : RawElement) : Prop :=
  exists id body, writes_element (fst c) id body /\ wf_id id /\ raw = element id body /\ fits raw.
(** the elements of the successful calls, in order *)
Fixpoint added (calls : list (Elem * bool)) (raws : list RawElement) : list RawElement :=
  match calls, raws with
  | (_, ok) :: calls', raw :: raws' => if ok then raw :: added calls' raws' else added calls' raws'
  | _, _ => []
  end.
End Spec.
