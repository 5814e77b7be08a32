(** C74: what a refused write leaves in the caller's buffer. The specification is SpecTorn.v; the writers step by step are in Stores.v. *)
From Verif Require Import Base SpecBase BaseFacts Bits Layouts Enums Common Crc Elements ElementTypes Suites Rsn Tim Mgmt Amsdu CryptoHeader Data
  Control Eapol Accessors SpecData SpecEapol SpecKeyMgmt KeyMgmt KeyMgmtState MgmtFacts2 SpecElements SpecMgmt Stores SpecTorn TornFacts TornFacts2 TornFacts3 TornFacts4
  TornFacts5.

(** A value with an encoding that does not fit is refused with an error. Every byte of the buffer is then as before or the byte of the
    encoding that belongs there; nothing behind the place of the encoding has changed. *)
Theorem C74_refused : forall (cfg : Cfg) w p bs buf b', Runs w p -> Writes w bs -> Left p buf b' ->
  (exists e, w buf = Err e) /\ Torn (map Byte bs) buf b'.
Proof. exact @refused. Qed.
Print Assumptions C74_refused.
(** The same behind something that has been written. *)
Theorem C74_behind : forall (cfg : Cfg) w p bs buf off b', Runs w p -> Writes w bs -> LeftFrom [p] buf off b' ->
  (exists e, gwrite w buf off = Err e) /\ Torn (repeat Kept off ++ map Byte bs) buf b'.
Proof. exact @behind. Qed.
Print Assumptions C74_behind.
(** Any value, also one which is refused for another reason, with a panic or with gaps: the bytes stored are those a successful write has. *)
Theorem C74_any : forall (cfg : Cfg) p buf b', Left p buf b' -> Torn (image p) buf b'.
Proof. exact @left_torn. Qed.
Print Assumptions C74_any.
Theorem C74_done : forall (cfg : Cfg) w p buf b' n, Runs w p -> w buf = Ok (b', n) -> n = length (image p) /\ Done (image p) buf b'.
Proof. exact @done_image. Qed.
Print Assumptions C74_done.
(** Something is left exactly if the write does not succeed. *)
Theorem C74_some : forall (cfg : Cfg) w p buf, Runs w p -> (exists b', Left p buf b') <-> (forall r, w buf <> Ok r).
Proof. exact @some_left. Qed.
Print Assumptions C74_some.
(** Unless a field is filled in afterwards, what is left is the front of the encoding. *)
Theorem C74_front : forall (cfg : Cfg) w p bs buf b', Runs w p -> Writes w bs -> Straight p -> Left p buf b' -> CutOff bs buf b'.
Proof. exact @front_left. Qed.
Print Assumptions C74_front.

(** ** The writers of the library *)
Theorem C74_elements : forall (cfg : Cfg),
  (forall x, Runs (et_write SSIDElement x) (p_slice x)) /\ (forall x, Runs (et_write MeshIDElement x) (p_slice x)) /\
  (forall x, Runs (et_write SupportedRatesElement x) (p_supported_rates x)) /\
  (forall x, Runs (et_write ExtendedSupportedRatesElement x) (p_extended_supported_rates x)) /\
  (forall x, Runs (et_write DSSSParameterSetElement x) (p_dsss x)) /\ (forall x, Runs (et_write IBSSParameterSetElement x) (p_ibss x)) /\
  (forall x, Runs (et_write BSSLoadElement x) (p_bss_load x)) /\ (forall x, Runs (et_write HTCapabilitiesElement x) (p_ht_cap x)) /\
  (forall x, Runs (et_write HTOperationElement x) (p_ht_op x)) /\ (forall x, Runs (et_write VHTCapabilitiesElement x) (p_vht_cap x)) /\
  (forall x, Runs (et_write VHTOperationElement x) (p_vht_op x)) /\ (forall x, Runs (et_write MeshConfigurationElement x) (p_mesh_conf x)) /\
  (forall x, Runs (et_write MeshPeeringElement x) (p_peering x)) /\ (forall x, Runs (et_write OWETransitionModeElement x) (p_owe x)) /\
  (forall x, Runs (et_write MacAddressKde x) (p_slice x)) /\ (forall x, Runs (et_write PmkidKde x) (p_slice x)) /\
  (forall x, Runs (et_write NonceKde x) (p_slice x)) /\ (forall x, Runs (et_write LifetimeKde x) (p_lifetime x)) /\
  (forall x, Runs (et_write GtkKde x) (p_gtk x)) /\ (forall x, Runs (et_write VendorSpecificElement x) (p_vendor x)) /\
  (forall x, Runs (et_write TIMElement x) (p_tim x)) /\ (forall x, Runs (et_write RsnElement x) (p_rsn x)).
Proof. exact @elements_run. Qed.
Print Assumptions C74_elements.
Theorem C74_wrapped : forall (cfg : Cfg) e p, Runs (e_write e) p -> Runs (wr_wrapped e) (p_wrapped (e_id e) (e_measure e) p).
Proof. exact @runs_wrapped. Qed.
Print Assumptions C74_wrapped.
Theorem C74_containers : forall (cfg : Cfg),
  Runs (c_write c_empty) p_empty /\ (forall bs, Runs (c_write (c_read_elements bs)) (p_slice bs)) /\
  (forall bs, Runs (c_write (c_bytes bs)) (Store bs)) /\
  (forall p, Runs (c_write (c_payload p)) (p_slice (match p with Pl_Single bs | Pl_AMSDU (Some bs) => bs | Pl_AMSDU None => [] end))) /\
  (forall f c, (forall e, In e (chain_elems c) -> Runs (e_write e) (f e)) -> Runs (c_write (c_chain c)) (p_chain f c)) /\
  (forall f l, (forall s, In s l -> Runs (c_write (sf_payload s)) (f (sf_payload s))) -> Runs (c_write (c_amsdu l)) (p_amsdu f l)) /\
  (forall w p, Runs (c_write (cw_payload w)) p -> Runs (c_write (c_crypto w)) (p_crypto w p)) /\
  (forall (s : Snap Container) p, Runs (c_write (snap_payload s)) p -> Runs (c_write (c_snap s)) (p_snap s p)) /\
  (forall k p, Runs (c_write (key_data k)) p -> Runs (c_write (c_key_frame k)) (p_key_frame k p)).
Proof. exact @containers_run. Qed.
Print Assumptions C74_containers.
Theorem C74_bodies : forall (cfg : Cfg),
  (forall b p, Runs (c_write (bb_elements b)) p -> Runs (bt_write Beacon b) (p_beacon b p)) /\
  (forall b p, Runs (c_write (bb_elements b)) p -> Runs (bt_write ProbeResponse b) (p_beacon b p)) /\
  (forall b p, Runs (c_write (pq_elements b)) p -> Runs (bt_write ProbeRequest b) p) /\
  (forall b p, Runs (c_write (au_elements b)) p -> Runs (bt_write Authentication b) (p_auth b p)) /\
  (forall b p, Runs (c_write (aq_elements b)) p -> Runs (bt_write AssociationRequest b) (p_assoc_req b p)) /\
  (forall b p, Runs (c_write (ar_elements b)) p -> Runs (bt_write AssociationResponse b) (p_assoc_resp b p)) /\
  (forall b p, Runs (c_write (rb_elements b)) p -> Runs (bt_write Deauthentication b) (p_reason b p)) /\
  (forall b p, Runs (c_write (rb_elements b)) p -> Runs (bt_write Disassociation b) (p_reason b p)) /\
  (forall b, Runs (bt_write RawAction b) (p_raw_action b)) /\
  (forall b p, Runs (c_write (va_payload b)) p -> Runs (bt_write RawVendorSpecificAction b) (p_vendor_action b p)) /\
  (forall b p, Runs (c_write (mo_elements b)) p -> Runs (bt_write MeshPeeringOpen b) (p_mesh_open b p)) /\
  (forall b p, Runs (c_write (mc_elements b)) p -> Runs (bt_write MeshPeeringConfirm b) (p_mesh_confirm b p)) /\
  (forall b p, Runs (c_write (ml_elements b)) p -> Runs (bt_write MeshPeeringClose b) (p_mesh_close p)).
Proof. exact @bodies_run. Qed.
Print Assumptions C74_bodies.
Theorem C74_mgmt : forall (cfg : Cfg) W R (t : BodyType W R) h b p fcs, Runs (bt_write t b) p ->
  Runs (wr_mgmt t h b fcs) (p_mgmt (bt_subtype t) h p fcs).
Proof. exact @runs_mgmt. Qed.
Print Assumptions C74_mgmt.
Theorem C74_data : forall (cfg : Cfg) h (c : option Container) po fcs,
  match c, po with Some c, Some p => Runs (c_write c) p | None, None => True | _, _ => False end ->
  Runs (wr_data (h, c) fcs) (p_data h po fcs).
Proof. exact @runs_data. Qed.
Print Assumptions C74_data.
Theorem C74_ctrl : forall (cfg : Cfg) c, Runs (wr_ctrl c) (p_ctrl c).
Proof. exact @runs_ctrl. Qed.
Print Assumptions C74_ctrl.
(** Chains of elements without fields filled in afterwards (only RSN elements have such), management and data frames of such: the front. *)
Theorem C74_chain_straight : forall f c, (forall e, In e (chain_elems c) -> Straight (f e)) -> Straight (p_chain f c).
Proof. exact @chain_straight. Qed.
Print Assumptions C74_chain_straight.
Theorem C74_mgmt_straight : forall s h p fcs, Straight p -> Straight (p_mgmt s h p fcs).
Proof. exact @mgmt_straight. Qed.
Print Assumptions C74_mgmt_straight.
Theorem C74_data_straight : forall (cfg : Cfg) h p fcs, match p with Some p => Straight p | None => True end -> Straight (p_data h p fcs).
Proof. exact @data_straight. Qed.
Print Assumptions C74_data_straight.

(** ** Frames built step by step (C27) *)
(** After any sequence of calls with any outcomes: the bytes behind the frame are as before the frame was written, or bytes of refused
    elements at the places where those would have gone. What C27 says holds, because refused calls are the failed ones there. *)
Theorem C74_dynamic : forall (cfg : Cfg) f frame mpdu buf st0 calls raws st, Writes (frame false) mpdu -> dyn_new frame buf = Ok st0 ->
  (forall e b, In (e, b) calls -> Runs (e_write e) (f e)) -> dyn_stores f st0 calls st -> Forall2 call_element calls raws ->
  dyn_steps st0 calls st /\
  forall i, length (mpdu ++ enc_elements (added calls raws)) <= i < length buf -> stray buf (fst st) (refused_calls (length mpdu) calls raws) i.
Proof. exact @dyn_stray. Qed.
Print Assumptions C74_dynamic.
Theorem C74_dynamic_some : forall (cfg : Cfg) f buf off e raw, Runs (e_write e) (f e) -> call_element (e, false) raw -> off <= length buf ->
  (exists err, dyn_add e (buf, off) = Err err) <-> exists b1, LeftFrom [p_wrapped (e_id e) (e_measure e) (f e)] buf off b1.
Proof. exact @dyn_refused_some. Qed.
Print Assumptions C74_dynamic_some.

(** ** Sending a key frame (C71): if the plain frame does not fit, the same holds *)
Theorem C71_short : forall (cfg : Cfg) hmac wrap kck kek h oui et (k : KeyFrame Container) kd p buffer temp torn,
  ok_data_header h -> length oui = 3 -> wf_bytes oui -> Writes (c_write (key_data k)) kd -> ok_key_frame (with_data k kd) ->
  Runs (c_write (key_data k)) p -> 24 <= temp -> LeftFrom [eapol_prog h oui et k p] buffer 0 torn ->
  serialize_in_place hmac wrap kck kek (h, Some (mkSnap oui et k)) buffer temp torn = (Err BufferTooShort, torn) /\
  Torn (map Byte (enc_eapol h oui et (with_data k kd))) buffer torn.
Proof. exact @send_short. Qed.
Print Assumptions C71_short.
Theorem C71_short_some : forall (cfg : Cfg) h oui et (k : KeyFrame Container) kd p buffer,
  ok_data_header h -> length oui = 3 -> wf_bytes oui -> Writes (c_write (key_data k)) kd -> ok_key_frame (with_data k kd) ->
  Runs (c_write (key_data k)) p -> length buffer < length (enc_eapol h oui et (with_data k kd)) ->
  exists torn, LeftFrom [eapol_prog h oui et k p] buffer 0 torn.
Proof. exact @send_short_some. Qed.
Print Assumptions C71_short_some.

(** ** Examples *)
(** An RSN element with two pairwise ciphers and a buffer of 14 bytes: the second cipher does not fit, and the number of ciphers, which is
    filled in afterwards, is still missing. *)
Example C74_ex : forall (cfg : Cfg),
  Left (p_rsn (mkRsn (Some Cs_Ccmp128) (Some (Arr [Cs_Ccmp128; Cs_Tkip])) None None None None)) (repeat 255%N 14)
       [1; 0; 0; 0x0f; 0xac; 4; 255; 255; 0; 0x0f; 0xac; 4; 255; 255]%N.
Proof.
  intros [[] [] []].
  all: constructor; eapply LF_later; [vm_compute; reflexivity|]; eapply LF_later; [vm_compute; reflexivity|].
  all: refine (LF_here _ [] _ 6 [255; 255; 0; 0x0f; 0xac; 4; 255; 255]%N _ _); [reflexivity|]; cbn [p_list]; apply LFill.
  all: refine (LF_here _ [] _ 2 [0; 0x0f; 0xac; 4; 255; 255]%N _ _); [reflexivity|]; constructor; eapply LF_later; [vm_compute; reflexivity|].
  all: refine (LF_here _ [] _ 4 [255; 255]%N _ _); [reflexivity|]; constructor; refine (LF_here _ [] _ 0 [255; 255]%N _ _); [reflexivity|].
  all: apply (LStore _ [255; 255]%N 0); cbn; lia.
Qed.
(** an SSID of five bytes in front of the end of a buffer: type and length are stored *)
Example C74_front_ex : forall (cfg : Cfg),
  Left (p_wrapped (Id 0) 5 (p_slice [1; 2; 3; 4; 5]%N)) (repeat 255%N 6) [0; 5; 255; 255; 255; 255]%N /\
  Straight (p_wrapped (Id 0) 5 (p_slice [1; 2; 3; 4; 5]%N)) /\
  Writes (wr_wrapped (elem_of SSIDElement [1; 2; 3; 4; 5]%N)) [0; 5; 1; 2; 3; 4; 5]%N.
Proof.
  intros cfg. split; [|split].
  - destruct cfg as [[] [] []].
    all: constructor; refine (LF_here _ [] _ 0 [0; 5; 255; 255; 255; 255]%N _ _); [reflexivity|]; constructor.
    all: eapply LF_later; [vm_compute; reflexivity|]; eapply LF_later; [vm_compute; reflexivity|].
    all: refine (LF_here _ [] _ 2 [255; 255; 255; 255]%N _ _); [reflexivity|]; constructor; refine (LF_here _ [] _ 0 [255; 255; 255; 255]%N _ _); [reflexivity|].
    all: apply (LStore _ [255; 255; 255; 255]%N 0); cbn; lia.
  - cbn. tauto.
  - apply (ElementsFacts.wr_wrapped_W (elem_of SSIDElement [1; 2; 3; 4; 5]%N) (Id 0) [1; 2; 3; 4; 5]%N).
    + split; [reflexivity|]. split; [reflexivity|]. apply pwrite0_W, wr_bytes_W.
    + reflexivity.
    + unfold SpecElements.fits. cbn. lia.
Qed.
(** two bytes are left: a channel element and then an SSID element are refused, and the first two bytes of the latter stay *)
Example C74_dynamic_ex : forall (cfg : Cfg),
  let ssid := elem_of SSIDElement [65; 66]%N in let channel := elem_of DSSSParameterSetElement 6%N in
  let f (e : Elem) := match e_id e with Id 0 => p_slice [65; 66]%N | _ => p_dsss 6 end in
  let front := repeat 7%N 24 ++ [0; 2; 65; 66]%N in
  dyn_stores f (repeat 7%N 24 ++ repeat 255%N 6, 24) [(ssid, true); (channel, false); (ssid, false)] (front ++ [0; 2]%N, 28).
Proof.
  intros [[] [] []]; cbv zeta.
  all: eapply DS_added; [vm_compute; reflexivity|].
  all: apply (DS_refused _ _ _ _ (repeat 7%N 24 ++ [0; 2; 65; 66; 3; 1]%N)).
  all: try (refine (LF_here _ [] _ 28 [3; 1]%N _ _); [reflexivity|]; constructor; refine (LF_here _ [] _ 0 [3; 1]%N _ _); [reflexivity|]; constructor;
            eapply LF_later; [vm_compute; reflexivity|]; eapply LF_later; [vm_compute; reflexivity|]).
  all: try (apply LF_end; reflexivity).
  all: try (refine (LF_here _ [] _ 2 [] _ _); [reflexivity|]; constructor).
  all: try (apply LF_end; reflexivity).
  all: try (refine (LF_here _ [] _ 0 [] _ _); [reflexivity|]; apply (LStore _ [] 0); cbn; lia).
  all: apply (DS_refused _ _ _ _ (repeat 7%N 24 ++ [0; 2; 65; 66; 0; 2]%N)); [|constructor].
  all: refine (LF_here _ [] _ 28 [0; 2]%N _ _); [reflexivity|]; constructor; refine (LF_here _ [] _ 0 [0; 2]%N _ _); [reflexivity|]; constructor.
  all: eapply LF_later; [vm_compute; reflexivity|]; eapply LF_later; [vm_compute; reflexivity|].
  all: try (apply LF_end; reflexivity).
  all: refine (LF_here _ [] _ 2 [] _ _); [reflexivity|]; constructor.
  all: try (apply LF_end; reflexivity).
  all: refine (LF_here _ [] _ 0 [] _ _); [reflexivity|]; apply (LStore _ [] 0); cbn; lia.
Qed.
