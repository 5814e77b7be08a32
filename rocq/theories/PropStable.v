(** C64: reading, writing and reading again. C65: different values are different bytes. *)
From Verif Require Import Base SpecBase Enums Common Crc Elements SpecElements ElementsFacts Mgmt SpecMgmt Rsn Data SpecData Control SpecGeneric
  Eapol SpecEapol MgmtFacts5 DataFacts2 SpecStable StableFacts InjectiveFacts RelayFacts.

(** ** C64 *)
(** The elements (or the payload) are passed on as received. Only association IDs are changed: their
    two most significant bits are set. *)
Theorem C64_elements : forall (cfg : Cfg),
  MgmtStable Beacon 8 (fun r => with_beacon r (c_read_elements (bb_elements r))) (fun body => body) /\
  MgmtStable ProbeResponse 5 (fun r => with_beacon r (c_read_elements (bb_elements r))) (fun body => body) /\
  MgmtStable ProbeRequest 4 (fun r => with_probe r (c_read_elements (pq_elements r))) (fun body => body) /\
  MgmtStable Authentication 11 (fun r => with_auth r (c_read_elements (au_elements r))) (fun body => body) /\
  MgmtStable AssociationRequest 0 (fun r => with_assoc_req r (c_read_elements (aq_elements r))) (fun body => body) /\
  MgmtStable AssociationResponse 1 (fun r => with_assoc_resp r (c_read_elements (ar_elements r))) canonical_aid /\
  MgmtStable Deauthentication 12 (fun r => with_reason r (c_read_elements (rb_elements r))) (fun body => body) /\
  MgmtStable Disassociation 10 (fun r => with_reason r (c_read_elements (rb_elements r))) (fun body => body).
Proof.
  exact (fun cfg => conj beacon_stable (conj probe_resp_stable (conj probe_stable (conj auth_stable (conj assoc_req_stable
    (conj assoc_resp_stable (conj deauth_stable disassoc_stable))))))).
Qed.
Print Assumptions C64_elements.
Theorem C64_actions : forall (cfg : Cfg),
  MgmtStable RawAction 13 (fun r => r) (fun body => body) /\
  MgmtStable RawVendorSpecificAction 13 (fun r => with_vendor r (c_bytes (va_payload r))) (fun body => body) /\
  MgmtStable MeshPeeringOpen 13 (fun r => with_open r (c_read_elements (mo_elements r))) (fun body => body) /\
  MgmtStable MeshPeeringConfirm 13 (fun r => with_confirm r (c_read_elements (mc_elements r))) canonical_aid /\
  MgmtStable MeshPeeringClose 13 (fun r => with_close r (c_read_elements (ml_elements r))) (fun body => body).
Proof. exact (fun cfg => conj raw_action_stable (conj vendor_stable (conj open_stable (conj confirm_stable close_stable)))). Qed.
Print Assumptions C64_actions.
(** an association response of protocol version 1, with an association ID without its top bits *)
Example C64_ex (cfg : Cfg) : let body := [1; 4; 0; 0; 5; 0; 1; 1; 130]%N in
  let bs := enc_frame true ([17; 0]%N ++ enc_mgmt_header (hdr 0 None) ++ body) in
  canonical_aid body = [1; 4; 0; 0; 5; 192; 1; 1; 130]%N /\ exists x, rd_mgmt AssociationResponse true bs = Ok x.
Proof. cbn zeta. split; [reflexivity|]. eexists. destruct cfg as [[] [] []]; vm_compute; reflexivity. Qed.

(** Data frames, on little endian machines. The version bits become zero, and bytes behind a frame
    whose subtype has no payload are dropped. *)
Theorem C64_data_partial : forall (cfg : Cfg) fcs bs h (p : option bytes) n,
  wf_bytes bs -> native_le = true -> rd_data fcs bs = Ok ((h, p), n) ->
  exists b0 rest tail,
    let frame := enc_frame fcs ((b0 - b0 mod 4)%N :: rest) in
    bs = enc_frame fcs (b0 :: rest ++ tail) /\ (p <> None -> tail = []) /\
    Writes (wr_data (h, match p with Some b => Some (c_bytes b) | None => None end) fcs) frame /\
    pread (rd_data fcs) frame 0 = Ok (h, p).
Proof. exact @data_stable. Qed.
Print Assumptions C64_data_partial.
(** Missing: big endian machines, on which each relay exchanges the bytes of duration and sequence control. *)
Theorem C64_big_endian_refuted : forall (cfg : Cfg), native_le = false -> exists bs h p n buf m h' p',
  wf_bytes bs /\ rd_data false bs = Ok ((h, Some p), n) /\ wr_data (h, Some (c_bytes p)) false (repeat 0%N 64) = Ok (buf, m) /\
  m = length bs /\ pread (rd_data false) (firstn m buf) 0 = Ok (h', p') /\ dh_duration h' <> dh_duration h /\ dh_seq h' <> dh_seq h.
Proof. exact @data_unstable. Qed.
Print Assumptions C64_big_endian_refuted.
(** Exactly: on such machines the frame is passed on with these two pairs of bytes exchanged. *)
Theorem C64_big_endian_exact : forall (cfg : Cfg) fcs bs h (p : option bytes) n, native_le = false -> wf_bytes bs -> rd_data fcs bs = Ok ((h, p), n) ->
  exists b0 flags d1 d2 addresses s1 s2 rest tail, length addresses = 18 /\ (p <> None -> tail = []) /\
    bs = enc_frame fcs ([b0; flags; d1; d2] ++ addresses ++ [s1; s2] ++ rest ++ tail) /\
    Writes (wr_data (h, match p with Some b => Some (c_bytes b) | None => None end) fcs)
      (enc_frame fcs ([(b0 - b0 mod 4)%N; flags; d2; d1] ++ addresses ++ [s2; s1] ++ rest)).
Proof. exact @data_relay_big. Qed.
Print Assumptions C64_big_endian_exact.
Example C64_data_ex (cfg : Cfg) : exists x n, rd_data true (enc_frame true [139; 2; 44; 1; 1; 1; 1; 1; 1; 1; 2; 2; 2; 2; 2; 2; 3; 3; 3; 3; 3; 3; 16; 32; 5; 0; 9; 9]%N) = Ok (x, n).
Proof. destruct cfg as [[] [] []]; do 2 eexists; vm_compute; reflexivity. Qed.

(** ** C65 *)
Theorem C65_elements : forall (cfg : Cfg),
  MgmtInjective Beacon ok_beacon bb_elements with_beacon /\ MgmtInjective ProbeResponse ok_beacon bb_elements with_beacon /\
  MgmtInjective ProbeRequest ok_any pq_elements with_probe /\ MgmtInjective Authentication ok_auth au_elements with_auth /\
  MgmtInjective AssociationRequest ok_assoc_req aq_elements with_assoc_req /\
  MgmtInjective AssociationResponse ok_assoc_resp ar_elements with_assoc_resp /\
  MgmtInjective Deauthentication ok_reason rb_elements with_reason /\ MgmtInjective Disassociation ok_reason rb_elements with_reason.
Proof.
  exact (fun cfg => conj beacon_inj (conj probe_resp_inj (conj probe_inj (conj auth_inj (conj assoc_req_inj
    (conj assoc_resp_inj (conj deauth_inj disassoc_inj))))))).
Qed.
Print Assumptions C65_elements.
Theorem C65_actions : forall (cfg : Cfg),
  MgmtInjective RawAction ok_raw_action (fun b => c_bytes (ra_payload b)) with_raw_action /\
  MgmtInjective RawVendorSpecificAction ok_vendor va_payload with_vendor /\
  MgmtInjective MeshPeeringOpen ok_open mo_elements with_open /\ MgmtInjective MeshPeeringConfirm ok_confirm mc_elements with_confirm /\
  MgmtInjective MeshPeeringClose ok_any ml_elements with_close.
Proof. exact (fun cfg => conj raw_action_inj (conj vendor_inj (conj open_inj (conj confirm_inj close_inj)))). Qed.
Print Assumptions C65_actions.
Theorem C65_data : forall (cfg : Cfg) fcs frame h1 h2 p1 p2 b1 b2,
  ok_data_header h1 -> ok_data_header h2 -> payload_ok h1 p1 b1 -> payload_ok h2 p2 b2 ->
  Writes (wr_data (h1, p1) fcs) frame -> Writes (wr_data (h2, p2) fcs) frame -> h1 = h2 /\ b1 = b2.
Proof. exact @data_inj. Qed.
Print Assumptions C65_data.
(** The writer of control frames does not write the frame control field. *)
Theorem C65_control : forall (cfg : Cfg) c1 c2 frame (x : N), ok_ctrl c1 -> ok_ctrl c2 ->
  @ctrl_fcf _ serr c1 = Ok x -> @ctrl_fcf _ serr c2 = Ok x -> Writes (wr_ctrl c1) frame -> Writes (wr_ctrl c2) frame -> c1 = c2.
Proof. exact @ctrl_inj. Qed.
Print Assumptions C65_control.
(** [raws1] and [raws2] are the raw elements of the chains. *)
Theorem C65_chains : forall (cfg : Cfg) c1 c2 raws1 raws2 bs,
  Forall2 item_element (chain_items c1) raws1 -> Forall2 item_element (chain_items c2) raws2 ->
  Forall wf_item (chain_items c1) -> Forall wf_item (chain_items c2) -> Forall fits raws1 -> Forall fits raws2 ->
  Writes (wr_chain c1) bs -> Writes (wr_chain c2) bs -> raws1 = raws2.
Proof. exact @chain_inj. Qed.
Print Assumptions C65_chains.
(** Key frames of one AKM suite, which determines the length of the MIC. *)
Theorem C65_key_frames : forall (cfg : Cfg) akm (k1 k2 : KeyFrame Container) d1 d2 frame,
  ok_key_frame (with_data k1 d1) -> ok_key_frame (with_data k2 d2) ->
  key_mic_len akm = Some (length (key_mic k1)) -> key_mic_len akm = Some (length (key_mic k2)) ->
  Writes (c_write (key_data k1)) d1 -> Writes (c_write (key_data k2)) d2 ->
  Writes (wr_key_frame k1) frame -> Writes (wr_key_frame k2) frame -> with_data k1 d1 = with_data k2 d2.
Proof. exact @key_frame_inj. Qed.
Print Assumptions C65_key_frames.
(** Two beacons that differ in one element have admissible contents, and are written as different bytes. *)
Example C65_ex (cfg : Cfg) : let w es := mkBeacon 5 100 1 (c_read_elements es) in
  let es1 := [0; 1; 65]%N in let es2 := [0; 1; 66]%N in
  ok_mgmt_header (hdr 0 None) /\ ok_beacon (w es1) /\ Writes (c_write (bb_elements (w es1))) es1 /\
  Writes (c_write (bb_elements (w es2))) es2 /\
  forall frame, Writes (wr_mgmt Beacon (hdr 0 None) (w es1) true) frame -> ~ Writes (wr_mgmt Beacon (hdr 0 None) (w es2) true) frame.
Proof.
  cbn zeta. assert (H : ok_mgmt_header (hdr 0 None)) by (repeat split; try reflexivity; apply BaseFacts.wf_bytesb_spec; reflexivity).
  assert (B : forall es, ok_beacon (mkBeacon 5 100 1 (c_read_elements es))) by (repeat split; reflexivity).
  assert (We : forall es, Writes (c_write (c_read_elements es)) es) by (intros; apply MgmtFacts2.c_read_elements_W).
  split; [exact H|]. split; [apply B|]. split; [apply We|]. split; [apply We|]. intros frame W1 W2.
  destruct (proj1 (C65_elements cfg) true frame _ _ _ _ [0; 1; 65]%N [0; 1; 66]%N H H (B _) (B _)
    ltac:(apply BaseFacts.wf_bytesb_spec; reflexivity) ltac:(apply BaseFacts.wf_bytesb_spec; reflexivity) (We _) (We _) W1 W2) as [_ E].
  discriminate E.
Qed.
