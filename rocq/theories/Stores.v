(** The writers of the library step by step, to say what a write that fails leaves in the caller's buffer. The functions of the other files
    give the buffer after a successful write only. *)
From Verif Require Import Base Bits Layouts Enums Common Crc Elements ElementTypes Tim Rsn Mgmt Amsdu CryptoHeader Data Control Eapol Accessors.

(** What a [try_into_ctx] does with the buffer it is given. *)
Inductive Prog :=
(** a number, an array or a slice is stored at the front *)
| Store (bs : bytes)
(** [buf.gwrite(x1, &mut offset)?; ...; buf.gwrite(xn, &mut offset)?; Ok(offset)], starting from 0 *)
| Steps (ps : list Prog)
(** an error is returned, or the function panics, before anything is stored *)
| Refuse (e : serr)
| Crash
(** something is written, then the bytes behind it are taken with a slice expression and filled; without bytes: a panic *)
| Then (body : Prog) (last : option bytes)
(** [n] bytes are left out, something is written behind them, then a number made from its size is stored in front of it *)
| Fill (big_endian : bool) (n : nat) (body : Prog) (value : nat -> N)
(** something is written, the reported size is rounded up to a multiple of four *)
| Rounded (body : Prog)
(** something is written, then the frame check sequence is attached *)
| Sealed (body : Prog).

Section Stores.
Context {cfg : Cfg}.
Definition field_bytes (big_endian : bool) (n : nat) (v : N) : bytes := if big_endian then be_bytes n v else le_bytes n v.
(** the result of a program, as with the writers of the other files *)
Fixpoint exec (p : Prog) : writer :=
  match p with
  | Store bs => wr_bytes bs
  | Steps ps => wseq (map exec ps)
  | Refuse e => fun _ => Err e
  | Crash => fun _ => Panic
  | Then body last => fun buf =>
    '(buf, off) <- exec body buf ;;
    match last with
    | None => Panic
    | Some bs =>
      rest <- slice_from buf off ;;
      _ <- slice_to rest (length bs) ;;
      Ok (firstn off buf ++ bs ++ skipn (length bs) rest, off + length bs)
    end
  | Fill be n body value => fun buf =>
    '(buf, off) <- gwrite (exec body) buf n ;;
    '(buf, _) <- pwrite (wr_bytes (field_bytes be n (value (off - n)))) buf 0 ;;
    Ok (buf, off)
  | Rounded body => fun buf => '(buf, off) <- exec body buf ;; Ok (buf, round4 off)
  | Sealed body => fun buf => '(buf, off) <- exec body buf ;; attach_fcs buf off
  end.

(** [Left p buf b']: [p] fails on [buf], by an error or a panic, and may leave [b'] in it. A number, array or slice that does not fit may
    have been stored in part: scroll checks the room for numbers and slices first, but writes arrays element by element. *)
Inductive Left : Prog -> bytes -> bytes -> Prop :=
| LStore bs buf k : length buf < length bs -> k <= length buf -> Left (Store bs) buf (firstn k bs ++ skipn k buf)
| LSteps ps buf b' : LeftFrom ps buf 0 b' -> Left (Steps ps) buf b'
| LRefuse e buf : Left (Refuse e) buf buf
| LCrash buf : Left Crash buf buf
| LThen body last buf b' : Left body buf b' -> Left (Then body last) buf b'
| LThen_panic body buf b1 off : exec body buf = Ok (b1, off) -> Left (Then body None) buf b1
| LThen_short body bs buf b1 off : exec body buf = Ok (b1, off) -> length b1 < off + length bs -> Left (Then body (Some bs)) buf b1
| LFill be n body value buf b' : LeftFrom [body] buf n b' -> Left (Fill be n body value) buf b'
| LFill_field be n body value buf b1 off b' : gwrite (exec body) buf n = Ok (b1, off) ->
    LeftFrom [Store (field_bytes be n (value (off - n)))] b1 0 b' -> Left (Fill be n body value) buf b'
| LRounded body buf b' : Left body buf b' -> Left (Rounded body) buf b'
| LSealed body buf b' : Left body buf b' -> Left (Sealed body) buf b'
| LSealed_far body buf b1 off : exec body buf = Ok (b1, off) -> length b1 < off -> Left (Sealed body) buf b1
| LSealed_fcs body buf b1 off b' : exec body buf = Ok (b1, off) -> off <= length b1 ->
    LeftFrom [Store (le_bytes 4 (crc32 (firstn off b1)))] b1 off b' -> Left (Sealed body) buf b'
(** the same for [gwrite] of several values one after the other *)
with LeftFrom : list Prog -> bytes -> nat -> bytes -> Prop :=
| LF_end p ps buf off : end_bad off (length buf) = true -> LeftFrom (p :: ps) buf off buf
| LF_here p ps buf off r : end_bad off (length buf) = false -> Left p (skipn off buf) r ->
    LeftFrom (p :: ps) buf off (firstn off buf ++ r)
| LF_later p ps buf off b1 off1 b' : gwrite (exec p) buf off = Ok (b1, off1) -> LeftFrom ps b1 off1 b' -> LeftFrom (p :: ps) buf off b'.

(** The program of a writer: its result is the result of the writer for every buffer. That it stores in the same order is by comparison with
    the source, as for the writer itself. *)
Definition Runs (w : writer) (p : Prog) : Prop := forall buf, w buf = exec p buf.

(** ** The programs *)
Definition p_le (n : nat) (v : N) : Prog := Store (le_bytes n v).
Definition p_be (n : nat) (v : N) : Prog := Store (be_bytes n v).
Definition p_u8 (v : N) : Prog := p_le 1 v.
Definition p_ne (n : nat) (v : N) : Prog := if native_le then p_le n v else p_be n v.
Definition p_opt {A} (f : A -> Prog) (o : option A) : list Prog := match o with Some a => [f a] | None => [] end.

(** *** Elements, /repo/src/elements *)
(** tlv-rs: the length is checked before anything is written *)
Definition p_tlv (ty : N) (measure : nat) (payload : Prog) : Prog :=
  if 255 <? measure then Refuse BadInput else Steps [p_u8 ty; p_u8 (N.of_nat measure); payload].
(** mod.rs:316-351 *)
Definition p_wrapped (id : ElementID) (measure : nat) (payload : Prog) : Prog :=
  match id with
  | Id id => Steps [p_tlv id measure payload]
  | ExtId x => Steps [p_tlv 255 (measure + 1) (Steps [p_u8 x; payload])]
  | VendorSpecific p => Steps [p_tlv 221 (length p + measure) (Steps [Steps [Store p; payload]])]
  end.
Definition p_raw (e : RawElement) : Prog := p_tlv (re_type e) (length (re_slice e)) (Store (re_slice e)).
(** element_chain.rs:76-91, 134-161; [f] is the program of the payload of an element *)
Definition p_item (f : Elem -> Prog) (i : ChainItem) : Prog :=
  match i with Typed e => p_wrapped (e_id e) (e_measure e) (f e) | RawItem e => p_raw e end.
Fixpoint p_chain (f : Elem -> Prog) (c : Chain) : Prog :=
  match c with
  | ChainEnd i => Steps [p_item f i]
  | ChainLink i n => Steps [p_item f i; p_chain f n]
  end.
Fixpoint chain_elems (c : Chain) : list Elem :=
  match c with
  | ChainEnd (Typed e) => [e]
  | ChainEnd (RawItem _) => []
  | ChainLink (Typed e) n => e :: chain_elems n
  | ChainLink (RawItem _) n => chain_elems n
  end.
(** a slice written with [pwrite] at 0: ssid.rs:130-143, mod.rs:286-302, kde.rs:12-51, read_iterator.rs:22-27, rsn.rs:390-395 *)
Definition p_slice (bs : bytes) : Prog := Steps [Store bs].
(** rates/supported_rates.rs:88-101, rates/extended_supported_rates.rs:92-101 *)
Definition p_supported_rates (rates : list N) : Prog := Steps (map p_u8 (firstn 8 rates)).
Definition p_extended_supported_rates (rates : list N) : Prog := Steps (map p_u8 rates).
(** dsss_parameter_set.rs:30-40, ibss_parameter_set.rs, bss_load.rs *)
Definition p_dsss (ch : N) : Prog := Steps [p_u8 ch].
Definition p_ibss (w : N) : Prog := Steps [p_le 2 w].
Definition p_bss_load (x : BSSLoad) : Prog :=
  Steps [p_le 2 (bl_station_count x); p_u8 (bl_channel_utilization x); p_le 2 (bl_capacity x)].
(** ht/mcs_set.rs:98-111, ht/capabilities.rs:299-333, ht/operation.rs:127-141 *)
Definition p_mcs_set (x : MCSSet) : Prog := Steps [Store (mcs_rx x); Store (firstn 6 (le_bytes 8 (mcs_flags x)))].
Definition p_ht_cap (x : HTCapabilities) : Prog :=
  Steps [p_le 2 (hc_info x); p_le 1 (hc_ampdu x); p_mcs_set (hc_mcs x); p_le 2 (hc_ext x); p_le 4 (hc_txbf x); p_le 1 (hc_asel x)].
Definition p_ht_op (x : HTOperation) : Prog :=
  Steps [p_u8 (ho_channel x); Store (firstn 5 (be_bytes 8 (ho_info x))); p_mcs_set (ho_mcs x)].
(** vht.rs:147-189, 207-254 *)
Definition p_vht_cap (x : VHTCapabilities) : Prog := Steps [p_le 4 (vc_info x); p_le 8 (vc_mcs_nss x)].
Definition p_vht_op (x : VHTOperation) : Prog :=
  Steps [p_u8 (channel_width_into_bits (vo_bandwidth x)); p_u8 (vo_seg0 x); p_u8 (vo_seg1 x); p_le 2 (vo_mcs x)].
(** mesh/mesh_configuration.rs:145-176, mesh_peering_management.rs:234-248 *)
Definition p_mesh_conf (x : MeshConfiguration) : Prog :=
  Steps [p_u8 (mesh_path_proto_into_bits (mc_protocol x)); p_u8 (mesh_path_metric_into_bits (mc_metric x));
         p_u8 (mesh_congestion_into_bits (mc_congestion x)); p_u8 (mesh_sync_into_bits (mc_sync x));
         p_u8 (mesh_auth_into_bits (mc_auth x)); p_u8 (mc_formation x); p_u8 (mc_capability x)].
Definition p_peering (x : MeshPeering) : Prog :=
  let front := [p_ne 2 (mesh_peering_proto_into_bits (mp_protocol x)); p_ne 2 (mp_local x)] in
  match @slice_to serr (mp_rest x) (mp_rest_len x) with
  | Ok s => Steps (front ++ [Store s])
  | _ => Then (Steps front) None
  end.
(** owe_transition.rs:86-100 *)
Definition p_owe (x : OWETransition) : Prog :=
  Steps ([Store (owe_bssid x); p_u8 (N.of_nat (length (owe_ssid x))); Store (owe_ssid x)]
         ++ p_opt (fun b => Steps [p_u8 (fst b); p_u8 (snd b)]) (owe_band x)).
(** kde.rs:61-63, 94-113; vendor_specific_element.rs:66-75 *)
Definition p_lifetime (x : N) : Prog := Steps [p_be 4 x].
Definition p_gtk (x : Gtk) : Prog := Steps [p_le 2 (gtk_info x); Store (gtk_key x)].
Definition p_vendor (x : bytes) : Prog := Steps [Store x].
(** tim.rs:125-131, 161-167, 354-369, 590-607 *)
Definition p_bitmap (b : Bitmap) : Prog :=
  match b with
  | BSlice bs => Store bs
  | _ => match bm_bytes b with Ok bs => Steps [Store bs] | Err e => Refuse e | Panic => Crash end
  end.
Definition p_tim_bitmap (t : TIMBitmap) : Prog :=
  Steps (match tb_bitmap t with
         | Some b => [p_u8 (tb_control t); p_bitmap b]
         | None => if tb_traffic t then [p_u8 (tb_control t); p_u8 0] else []
         end).
Definition p_tim (t : TIM) : Prog :=
  match check_dtim_parameters (te_period t) (te_count t) with
  | Ok _ => Steps ([p_u8 (te_count t); p_u8 (te_period t)]
                   ++ match te_bitmap t with Some b => if tb_is_empty b then [] else [p_tim_bitmap b] | None => [] end)
  | Err e => Refuse e
  | Panic => Crash
  end.
(** rsn.rs:117-127, 796-806, 808-854 *)
Definition p_cipher (x : CipherSuite) : Prog := Steps [p_le 4 (cipher_selector x)].
Definition p_akm (x : AkmType) : Prog := Steps [p_le 4 (akm_selector x)].
Definition p_rlist {A} (p : A -> Prog) (l : RList A) : Prog :=
  match l with Arr l => Steps (map p l) | Iter bs => p_slice bs end.
Definition p_list {A} (p : A -> Prog) (l : RList A) : Prog :=
  Fill false 2 (p_rlist p l) (fun size => (N.of_nat size mod 65536 / 4)%N).
Definition p_rsn (x : Rsn) : Prog :=
  Steps (p_le 2 1 ::
    match rsn_group x with None => [] | Some group => p_cipher group ::
    match rsn_pairwise x with None => [] | Some l => p_list p_cipher l ::
    match rsn_akm x with None => [] | Some l => p_list p_akm l ::
    match rsn_caps x with None => [] | Some caps => p_le 2 caps ::
    match rsn_pmkids x with None => [] | Some l => p_list p_slice l ::
    match rsn_group_mgmt x with None => [] | Some gm => [p_cipher gm]
    end end end end end end).

(** *** Management frames, /repo/src/frames/mgmt_frame. [p] is the program of the elements or the payload. *)
(** common/mod.rs:142-159 [Empty] *)
Definition p_empty : Prog := Steps [].
(** body/beacon.rs, probe.rs, auth.rs:58-87, assoc.rs:49-73, 124-155, deauth.rs:44-63, disassoc.rs:51-63 *)
Definition p_beacon {E} (b : BeaconLikeBody E) (p : Prog) : Prog :=
  Steps [p_le 8 (bb_timestamp b); p_le 2 (bb_interval b); p_le 2 (bb_capabilities b); p].
Definition p_auth {E} (b : AuthenticationBody E) (p : Prog) : Prog :=
  Steps [p_le 2 (auth_algo_into_bits (au_algorithm b)); p_le 2 (au_sequence b); p_le 2 (status_into_bits (au_status b)); p].
Definition p_assoc_req {E} (b : AssociationRequestBody E) (p : Prog) : Prog :=
  Steps [p_le 2 (aq_capabilities b); p_le 2 (aq_listen_interval b); p].
Definition p_assoc_resp {E} (b : AssociationResponseBody E) (p : Prog) : Prog :=
  Steps [p_le 2 (ar_capabilities b); p_le 2 (status_into_bits (ar_status b));
         p_le 2 (match ar_aid b with Some a => aid_into_bits a | None => 0%N end); p].
Definition p_reason {E} (b : ReasonBody E) (p : Prog) : Prog := Steps [p_le 2 (reason_into_bits (rb_reason b)); p].
(** body/action/mod.rs:87-102, vendor.rs:45-68, self_protected.rs:71-110, 165-204, 247-282 *)
Definition p_raw_action (b : RawActionBody) : Prog := Steps [p_u8 (category_into_bits (ra_category b)); Store (ra_payload b)].
Definition p_vendor_action {E} (b : VendorActionBody E) (p : Prog) : Prog :=
  Steps [p_u8 (category_into_bits Cat_VendorSpecific); Store (va_oui b); p].
Definition p_self_protected (code : SelfProtectedActionCode) : list Prog :=
  [p_u8 (category_into_bits Cat_SelfProtected); p_u8 (self_prot_into_bits code)].
Definition p_mesh_open {E} (b : MeshOpenBody E) (p : Prog) : Prog :=
  Steps (p_self_protected Sp_MeshPeeringOpen ++ [p_le 2 (mo_capabilities b); p]).
Definition p_mesh_confirm {E} (b : MeshConfirmBody E) (p : Prog) : Prog :=
  Steps (p_self_protected Sp_MeshPeeringConfirm ++ [p_le 2 (mc_capabilities b); p_le 2 (aid_into_bits (mc_aid b)); p]).
Definition p_mesh_close (p : Prog) : Prog := Steps (p_self_protected Sp_MeshPeeringClose ++ [p]).
(** header.rs:65-85 *)
Definition p_mgmt_header (h : MgmtHeader) : Prog :=
  Steps ([p_le 2 (mh_duration h); Store (mh_ra h); Store (mh_ta h); Store (mh_bssid h); p_le 2 (mh_seq h)]
         ++ p_opt Store (mh_ht h)).
(** mod.rs:97-120; [p] is the program of the body *)
Definition p_mgmt (s : ManagementFrameSubtype) (h : MgmtHeader) (p : Prog) (fcs : bool) : Prog :=
  let frame := Steps [p_le 2 (fcf_make (FT_Management s) (mh_flags h)); p_mgmt_header h; p] in
  if fcs then Sealed frame else frame.

(** *** Data frames, /repo/src/frames/data_frame, and control frames. [p] is the program of the payload. *)
(** header.rs:287-313 *)
Definition p_data_header (h : DataHeader) : Prog :=
  Steps ([p_le 2 (dh_duration h); Store (dh_a1 h); Store (dh_a2 h); Store (dh_a3 h); p_le 2 (dh_seq h)]
         ++ p_opt Store (dh_a4 h) ++ p_opt Store (dh_qos h) ++ p_opt Store (dh_ht h)).
(** mod.rs:209-231 *)
Definition p_data (h : DataHeader) (p : option Prog) (fcs : bool) : Prog :=
  match @data_fcf _ serr h with
  | Ok fcf =>
    let frame := Steps ([p_le 2 fcf; p_data_header h] ++ p_opt (fun p => p) p) in
    if fcs then Sealed frame else frame
  | Err e => Refuse e
  | Panic => Crash
  end.
(** amsdu.rs:54-75, 150-161 *)
Definition p_subframe (s : AMSDUSubframe Container) (p : Prog) : Prog :=
  Rounded (Steps [Store (sf_da s); Store (sf_sa s); p_le 2 (N.of_nat (c_measure (sf_payload s))); p]).
Definition p_amsdu (f : Container -> Prog) (l : list (AMSDUSubframe Container)) : Prog :=
  Steps (map (fun s => p_subframe s (f (sf_payload s))) l).
(** crypto/crypto_header.rs:81-93, 159-173 *)
Definition p_crypto_header (h : CryptoHeader) : Prog :=
  Steps [Store (firstn 2 (ch_pn h)); p_u8 0; p_u8 (N.lor 32 (shl6_u8 (ch_key_id h))); Store (skipn 2 (ch_pn h))].
Definition p_crypto {P} (w : CryptoWrapper P) (p : Prog) : Prog :=
  Then (Steps [p_crypto_header (cw_header w); p]) (Some (repeat 0%N (mic_length (cw_mic w)))).
(** crypto/eapol.rs:173-212 *)
Definition p_key_frame {P} (k : KeyFrame P) (p : Prog) : Prog :=
  Steps [p_u8 2; p_u8 3;
    Fill true 2 (Steps [p_u8 2; p_be 2 (key_information k); p_be 2 (key_length k); p_be 8 (key_replay_counter k);
                        Store (key_nonce k); p_be 16 (key_iv k); p_be 8 (key_rsc k); p_be 8 0; Store (key_mic k);
                        Fill true 2 p (fun size => (N.of_nat size mod 65536)%N)])
         (fun size => (N.of_nat size mod 65536)%N)].
(** llc-rs *)
Definition p_snap {P} (s : Snap P) (p : Prog) : Prog :=
  Steps [Store [0xaa; 0xaa; 3]%N; Store (snap_oui s); p_be 2 (snap_ether_type s); p].
(** control_frame/mod.rs:137-174 *)
Definition p_ctrl (c : ControlFrame) : Prog :=
  match c with
  | C_RTS _ duration ra ta => Steps [p_le 2 duration; Store ra; Store ta]
  | C_CTS _ duration ra | C_Ack _ duration ra => Steps [p_le 2 duration; Store ra]
  | C_Unknown _ _ body => Steps [Store body]
  end.

(** *** [DynamicManagementFrame], /repo/src/frames/mgmt_frame/mod.rs:185-189: calls of [add_element] with their outcomes. A refused call
    leaves what its writer has stored; [f] is the program of the payload of an element. *)
Inductive dyn_stores (f : Elem -> Prog) : bytes * nat -> list (Elem * bool) -> bytes * nat -> Prop :=
| DS_done st : dyn_stores f st [] st
| DS_added st e st1 calls st' : dyn_add e st = Ok st1 -> dyn_stores f st1 calls st' -> dyn_stores f st ((e, true) :: calls) st'
| DS_refused buf off e b1 calls st' : LeftFrom [p_wrapped (e_id e) (e_measure e) (f e)] buf off b1 -> dyn_stores f (b1, off) calls st' ->
    dyn_stores f (buf, off) ((e, false) :: calls) st'.
End Stores.
