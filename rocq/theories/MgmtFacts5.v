(** Management frames: the statements about all frame types, and counterexamples. *)
From Verif Require Import Base BaseFacts Bits Layouts BitsFacts Enums EnumsFacts Common SpecBase SpecCommon CommonFacts Crc CrcFacts
  Elements SpecElements ElementsFacts ElementTypes SpecElementTypes ElementTypesFacts StepsFacts Mgmt SpecMgmt MgmtFacts MgmtFacts2 MgmtFacts3 MgmtFacts4.

Section Facts.
Context {cfg : Cfg}.

(** ** Round trips of the two types made by the same function *)
Lemma beacon_rt : MgmtRoundTrip Beacon 8 ok_beacon fixed_beacon bb_elements with_beacon False.
Proof. now apply beacon_like_rt. Qed.
Lemma probe_resp_rt : MgmtRoundTrip ProbeResponse 5 ok_beacon fixed_beacon bb_elements with_beacon False.
Proof. now apply beacon_like_rt. Qed.
Lemma deauth_rt : MgmtRoundTrip Deauthentication 12 ok_reason fixed_reason rb_elements with_reason False.
Proof. now apply reason_rt. Qed.
Lemma disassoc_rt : MgmtRoundTrip Disassociation 10 ok_reason fixed_reason rb_elements with_reason False.
Proof. now apply reason_rt. Qed.

(** ** Reading and writing again *)
Local Ltac re rt inv := eapply reserialise; [exact rt | apply mgmt_lossless; exact inv | intros r Hr; split; [exact Hr|split; [reflexivity|]]].
Lemma beacon_re : MgmtReserialise Beacon 8 (fun r => with_beacon r (c_read_elements (bb_elements r))) any_body.
Proof. re beacon_rt rd_beacon_inv. apply c_read_elements_W. Qed.
Lemma probe_resp_re : MgmtReserialise ProbeResponse 5 (fun r => with_beacon r (c_read_elements (bb_elements r))) any_body.
Proof. re probe_resp_rt rd_beacon_inv. apply c_read_elements_W. Qed.
Lemma auth_re : MgmtReserialise Authentication 11 (fun r => with_auth r (c_read_elements (au_elements r))) any_body.
Proof. re auth_rt rd_auth_inv. apply c_read_elements_W. Qed.
Lemma assoc_req_re : MgmtReserialise AssociationRequest 0 (fun r => with_assoc_req r (c_read_elements (aq_elements r))) any_body.
Proof. re assoc_req_rt rd_assoc_req_inv. apply c_read_elements_W. Qed.
Lemma assoc_resp_re : MgmtReserialise AssociationResponse 1 (fun r => with_assoc_resp r (c_read_elements (ar_elements r))) canon_assoc_resp.
Proof. re assoc_resp_rt rd_assoc_resp_inv. apply c_read_elements_W. Qed.
Lemma deauth_re : MgmtReserialise Deauthentication 12 (fun r => with_reason r (c_read_elements (rb_elements r))) any_body.
Proof. re deauth_rt rd_reason_inv. apply c_read_elements_W. Qed.
Lemma disassoc_re : MgmtReserialise Disassociation 10 (fun r => with_reason r (c_read_elements (rb_elements r))) any_body.
Proof. re disassoc_rt rd_reason_inv. apply c_read_elements_W. Qed.
Lemma probe_re : MgmtReserialise ProbeRequest 4 (fun r => with_probe r (c_read_elements (pq_elements r))) any_body.
Proof. re probe_rt rd_probe_inv. apply c_read_elements_W. Qed.
Lemma raw_action_re : MgmtReserialise RawAction 13 (fun r => r) any_body.
Proof. re raw_action_rt rd_raw_action_inv. apply c_bytes_T. Qed.
Lemma vendor_re : MgmtReserialise RawVendorSpecificAction 13 (fun r => with_vendor r (c_bytes (va_payload r))) any_body.
Proof. re vendor_rt rd_vendor_action_inv. apply c_bytes_T. Qed.
Lemma open_re : MgmtReserialise MeshPeeringOpen 13 (fun r => with_open r (c_read_elements (mo_elements r))) any_body.
Proof. re open_rt rd_open_inv. apply c_read_elements_W. Qed.
Lemma confirm_re : MgmtReserialise MeshPeeringConfirm 13 (fun r => with_confirm r (c_read_elements (mc_elements r))) canon_confirm.
Proof. re confirm_rt rd_confirm_inv. apply c_read_elements_W. Qed.
Lemma close_re : MgmtReserialise MeshPeeringClose 13 (fun r => with_close r (c_read_elements (ml_elements r))) any_body.
Proof. re close_rt rd_close_inv. apply c_read_elements_W. Qed.

(** ** Sizes *)
Lemma measures :
  MgmtMeasure Beacon 8 ok_beacon fixed_beacon bb_elements 0 /\
  MgmtMeasure ProbeResponse 5 ok_beacon fixed_beacon bb_elements 0 /\
  MgmtMeasure Authentication 11 ok_auth fixed_auth au_elements 0 /\
  MgmtMeasure AssociationRequest 0 ok_assoc_req fixed_assoc_req aq_elements 0 /\
  MgmtMeasure AssociationResponse 1 ok_assoc_resp fixed_assoc_resp ar_elements 0 /\
  MgmtMeasure Deauthentication 12 ok_reason fixed_reason rb_elements 0 /\
  MgmtMeasure Disassociation 10 ok_reason fixed_reason rb_elements 0 /\
  MgmtMeasure ProbeRequest 4 ok_any fixed_probe pq_elements 0 /\
  MgmtMeasure RawAction 13 ok_raw_action fixed_raw_action (fun b => c_bytes (ra_payload b)) 0.
Proof.
  repeat match goal with |- _ /\ _ => split end; apply mgmt_measure_spec; intros w Hw; cbn; lia.
Qed.
Lemma measures_short :
  MgmtMeasure RawVendorSpecificAction 13 ok_vendor fixed_vendor va_payload 1 /\
  MgmtMeasure MeshPeeringOpen 13 ok_open fixed_open mo_elements 1 /\
  MgmtMeasure MeshPeeringConfirm 13 ok_confirm fixed_confirm mc_elements 1 /\
  MgmtMeasure MeshPeeringClose 13 ok_any fixed_close ml_elements 1.
Proof.
  repeat match goal with |- _ /\ _ => split end; apply mgmt_measure_spec; intros w Hw; try (cbn; lia).
  destruct Hw as [L _]. cbn. lia.
Qed.
(** the methods [length_in_bytes] of the bodies *)
Lemma body_lengths :
  (forall b, beacon_length b = length (fixed_beacon b ++ bb_elements b)) /\
  (forall b, auth_length b = length (fixed_auth b ++ au_elements b)) /\
  (forall b, assoc_req_length b = length (fixed_assoc_req b ++ aq_elements b)) /\
  (forall b, assoc_resp_length b = length (fixed_assoc_resp b ++ ar_elements b)) /\
  (forall b, reason_length b = length (fixed_reason b ++ rb_elements b)) /\
  (forall b, probe_req_length b = length (fixed_probe b ++ pq_elements b)).
Proof. repeat split; intros b; rewrite app_length; reflexivity. Qed.

(** ** Panics *)
Lemma totals : MgmtTotal Beacon /\ MgmtTotal ProbeResponse /\ MgmtTotal Authentication /\ MgmtTotal AssociationRequest /\
  MgmtTotal AssociationResponse /\ MgmtTotal Deauthentication /\ MgmtTotal Disassociation /\ MgmtTotal ProbeRequest /\
  MgmtTotal RawAction /\ MgmtTotal RawVendorSpecificAction /\ MgmtTotal MeshPeeringOpen /\ MgmtTotal MeshPeeringConfirm /\
  MgmtTotal MeshPeeringClose.
Proof.
  repeat match goal with |- _ /\ _ => split end; apply total;
    first [apply rd_beacon_NP|apply rd_beacon_IB|apply rd_auth_NP|apply rd_auth_IB|apply rd_assoc_req_NP|apply rd_assoc_req_IB
      |apply rd_assoc_resp_NP|apply rd_assoc_resp_IB|apply rd_reason_NP|apply rd_reason_IB|apply rd_probe_NP|apply rd_probe_IB
      |apply rd_raw_action_NP|apply rd_raw_action_IB|apply rd_vendor_action_NP|apply rd_vendor_action_IB|apply rd_open_NP|apply rd_open_IB
      |apply rd_confirm_NP|apply rd_confirm_IB|apply rd_close_NP|apply rd_close_IB].
Qed.

(** ** Counterexamples *)
Definition addr (b : N) : bytes := [2; 0; 0; 0; 0; b]%N.
Definition hdr (flags : N) (ht : option bytes) : MgmtHeader := mkMH flags 0 (addr 1) (addr 2) (addr 3) 0 ht.
(** the order flag without HT control field: the first bytes of the body are read as HT control *)
Lemma order_without_ht :
  let h := hdr 128 None in let w := mkReason (reason_from_bits 3) (c_read_elements [221; 4; 1; 2; 3; 4]%N) in
  exists frame, Writes (wr_mgmt Deauthentication h w false) frame /\
    exists r, pread (rd_mgmt Deauthentication false) frame 0 = Ok r /\ fst r <> h /\ snd r <> mkReason (reason_from_bits 3) [221; 4; 1; 2; 3; 4]%N.
Proof.
  intros h w. exists (enc_mgmt 12 h ([3; 0] ++ [221; 4; 1; 2; 3; 4])%N). split.
  - apply (with_fcs_W _ _ false).
    eapply Writes_eq; [apply wseq_W; constructor; [apply wr_bytes_W|constructor; [|constructor; [|constructor]]]|].
    + instantiate (1 := enc_mgmt_header h). unfold wr_mgmt_header.
      eapply Writes_eq; [apply wseq_W; do 5 (constructor; [apply wr_bytes_W|]); constructor|]. reflexivity.
    + instantiate (1 := ([3; 0] ++ [221; 4; 1; 2; 3; 4])%N).
      eapply (body_W [_]); [constructor; [apply wr_bytes_W|constructor]|reflexivity|]. apply c_read_elements_W.
    + reflexivity.
  - eexists. split; [destruct cfg as [[] [] []]; vm_compute; reflexivity|]. split; vm_compute; discriminate.
Qed.
(** HT control field without order flag: it is read as part of the body *)
Lemma ht_without_order :
  let h := hdr 0 (Some [1; 0; 0; 0]%N) in let w := mkReason (reason_from_bits 3) (c_read_elements [221; 4; 1; 2; 3; 4]%N) in
  exists frame, Writes (wr_mgmt Deauthentication h w false) frame /\
    exists r, pread (rd_mgmt Deauthentication false) frame 0 = Ok r /\ fst r <> h /\ snd r <> mkReason (reason_from_bits 3) [221; 4; 1; 2; 3; 4]%N.
Proof.
  intros h w. exists (enc_mgmt 12 h ([3; 0] ++ [221; 4; 1; 2; 3; 4])%N). split.
  - apply (with_fcs_W _ _ false).
    eapply Writes_eq; [apply wseq_W; constructor; [apply wr_bytes_W|constructor; [|constructor; [|constructor]]]|].
    + instantiate (1 := enc_mgmt_header h). unfold wr_mgmt_header.
      eapply Writes_eq; [apply wseq_W; do 6 (constructor; [apply wr_bytes_W|]); constructor|]. reflexivity.
    + instantiate (1 := ([3; 0] ++ [221; 4; 1; 2; 3; 4])%N).
      eapply (body_W [_]); [constructor; [apply wr_bytes_W|constructor]|reflexivity|]. apply c_read_elements_W.
    + reflexivity.
  - eexists. split; [destruct cfg as [[] [] []]; vm_compute; reflexivity|]. split; vm_compute; discriminate.
Qed.
(** a deauthentication frame without elements cannot be read if scroll is strict *)
Lemma strict_no_elements : strict_end = true ->
  exists h w frame, ok_mgmt_header h /\ ok_reason w /\ c_write (rb_elements w) = c_write c_empty /\
    Writes (wr_mgmt Deauthentication h w false) frame /\
    exists e, pread (rd_mgmt Deauthentication false) frame 0 = Err e.
Proof.
  intros S. exists (hdr 0 None), (mkReason (reason_from_bits 3) c_empty).
  assert (Hh : ok_mgmt_header (hdr 0 None)).
  { unfold ok_mgmt_header, hdr, addr, address, u8, u16, wf_bytes. cbn. repeat split; auto; repeat constructor. }
  assert (Hw : ok_reason (mkReason (reason_from_bits 3) c_empty)) by (split; reflexivity).
  destruct (deauth_rt (hdr 0 None) (mkReason (reason_from_bits 3) c_empty) [] false Hh Hw wf_bytes_nil (proj1 c_empty_T)) as (W & _ & _).
  eexists. split; [exact Hh|]. split; [exact Hw|]. split; [reflexivity|]. split; [exact W|].
  destruct cfg as [[] [] []]; [..|discriminate|discriminate|discriminate|discriminate]; eexists; vm_compute; reflexivity.
Qed.
(** vendor specific action and mesh peering bodies announce one byte less than they write *)
Lemma short_measures :
  exists (h : MgmtHeader) (v : VendorActionBody Container) (o : MeshOpenBody Container) (c : MeshConfirmBody Container) (l : MeshCloseBody Container),
  ok_mgmt_header h /\ ok_vendor v /\ ok_open o /\ ok_confirm c /\
  (forall buf n, wr_mgmt RawVendorSpecificAction h v true (repeat 0%N 100) = Ok (buf, n) -> mgmt_measure RawVendorSpecificAction h v true + 1 = n) /\
  (forall buf n, wr_mgmt MeshPeeringOpen h o true (repeat 0%N 100) = Ok (buf, n) -> mgmt_measure MeshPeeringOpen h o true + 1 = n) /\
  (forall buf n, wr_mgmt MeshPeeringConfirm h c true (repeat 0%N 100) = Ok (buf, n) -> mgmt_measure MeshPeeringConfirm h c true + 1 = n) /\
  (forall buf n, wr_mgmt MeshPeeringClose h l true (repeat 0%N 100) = Ok (buf, n) -> mgmt_measure MeshPeeringClose h l true + 1 = n) /\
  (exists r, wr_mgmt RawVendorSpecificAction h v true (repeat 0%N 100) = Ok r) /\
  (exists r, wr_mgmt MeshPeeringOpen h o true (repeat 0%N 100) = Ok r) /\
  (exists r, wr_mgmt MeshPeeringConfirm h c true (repeat 0%N 100) = Ok r) /\
  (exists r, wr_mgmt MeshPeeringClose h l true (repeat 0%N 100) = Ok r).
Proof.
  exists (hdr 0 None), (mkVendor [0; 1; 2]%N (c_bytes [5]%N)), (mkOpen 0 (c_bytes [5; 0]%N)), (mkConfirm 0 49153%N (c_bytes [5; 0]%N)), (mkClose (c_bytes [5; 0]%N)).
  split. { unfold ok_mgmt_header, hdr, addr, address, u8, u16, wf_bytes. cbn. repeat split; auto; repeat constructor. }
  split. { split; [reflexivity|repeat constructor]. }
  split; [reflexivity|]. split. { split; [reflexivity|unfold ok_aid; cbn; lia]. }
  destruct cfg as [[] [] []].
  all: (split; [intros buf n E; vm_compute in E; injection E as _ <-; reflexivity|]).
  all: (split; [intros buf n E; vm_compute in E; injection E as _ <-; reflexivity|]).
  all: (split; [intros buf n E; vm_compute in E; injection E as _ <-; reflexivity|]).
  all: (split; [intros buf n E; vm_compute in E; injection E as _ <-; reflexivity|]).
  all: repeat split; eexists; vm_compute; reflexivity.
Qed.
(** the checksum of a dynamic frame on a big endian machine is refused *)
Lemma dyn_big_endian : native_le = false -> exists (st : bytes * nat) buf n,
  into_dynamic ProbeRequest (hdr 0 None) (mkProbeReq c_empty) (repeat 0%N 100) = Ok st /\
  dyn_finish true st = Ok (buf, n) /\ exists e, pread (rd_mgmt ProbeRequest true) (firstn n buf) 0 = Err e.
Proof.
  intros N. destruct cfg as [[] [] []]; try discriminate;
    (eexists; eexists; eexists; split; [vm_compute; reflexivity|]; split; [vm_compute; reflexivity|]; eexists; vm_compute; reflexivity).
Qed.
(** association IDs without the two top bits are accepted, but written with them *)
Lemma aid_bits_lost : exists bs h r buf n, wf_bytes bs /\ rd_mgmt AssociationResponse false bs = Ok ((h, r), length bs) /\
  wr_mgmt AssociationResponse h (with_assoc_resp r (c_read_elements (ar_elements r))) false (repeat 0%N 100) = Ok (buf, n) /\
  n = length bs /\ firstn n buf <> bs.
Proof.
  exists (enc_mgmt 1 (hdr 0 None) [0; 0; 0; 0; 5; 0; 1; 1; 130]%N).
  eexists. eexists. eexists. eexists. split. { unfold wf_bytes. vm_compute. repeat constructor. }
  destruct cfg as [[] [] []];
  (split; [vm_compute; reflexivity|]; split; [vm_compute; reflexivity|]; split; [reflexivity|vm_compute; discriminate]).
Qed.
(** the protocol version is accepted, whatever it is, and written as 0 *)
Lemma version_lost : exists bs h r buf n, wf_bytes bs /\ rd_mgmt ProbeRequest false bs = Ok ((h, r), length bs) /\
  wr_mgmt ProbeRequest h (with_probe r (c_read_elements (pq_elements r))) false (repeat 0%N 100) = Ok (buf, n) /\
  n = length bs /\ firstn n buf <> bs.
Proof.
  exists ([67; 0] ++ enc_mgmt_header (hdr 0 None) ++ [1; 1; 130])%N.
  eexists. eexists. eexists. eexists. split. { unfold wf_bytes. vm_compute. repeat constructor. }
  destruct cfg as [[] [] []];
  (split; [vm_compute; reflexivity|]; split; [vm_compute; reflexivity|]; split; [reflexivity|vm_compute; discriminate]).
Qed.
(** the subtype is not checked: a beacon is read as an authentication frame *)
Lemma subtype_unchecked : exists h w es frame r,
  ok_mgmt_header h /\ ok_beacon w /\ wf_bytes es /\ Writes (c_write (bb_elements w)) es /\
  Writes (wr_mgmt Beacon h w false) frame /\ pread (rd_mgmt Authentication false) frame 0 = Ok r.
Proof.
  exists (hdr 0 None), (mkBeacon 0 100 0 (c_read_elements [1; 1; 130])%N), [1; 1; 130]%N.
  assert (Hh : ok_mgmt_header (hdr 0 None)).
  { unfold ok_mgmt_header, hdr, addr, address, u8, u16, wf_bytes. cbn. repeat split; auto; repeat constructor. }
  assert (Hw : ok_beacon (mkBeacon 0 100 0 (c_read_elements [1; 1; 130])%N)) by (repeat split; reflexivity).
  assert (We : wf_bytes [1; 1; 130]%N) by (repeat constructor).
  destruct (beacon_rt (hdr 0 None) (mkBeacon 0 100 0 (c_read_elements [1; 1; 130])%N) [1; 1; 130]%N false Hh Hw We (c_read_elements_W _)) as (W & _ & _).
  eexists. eexists. split; [exact Hh|]. split; [exact Hw|]. split; [exact We|]. split; [apply c_read_elements_W|]. split; [exact W|].
  destruct cfg as [[] [] []]; vm_compute; reflexivity.
Qed.
Lemma action_parsed :
  (forall body r n, wf_bytes body -> rd_vendor_action body = Ok (r, n) -> body = (127%N :: va_oui r) ++ va_payload r /\ length (va_oui r) = 3) /\
  (forall body r n, wf_bytes body -> rd_mesh_open body = Ok (r, n) -> body = [15; 1]%N ++ le_bytes 2 (mo_capabilities r) ++ mo_elements r) /\
  (forall body r n, wf_bytes body -> rd_mesh_close body = Ok (r, n) -> body = [15; 3]%N ++ ml_elements r).
Proof.
  split; [|split]; intros body r n W E.
  - destruct (rd_vendor_action_inv body r n W E I) as [[L _] X]. auto.
  - now destruct (rd_open_inv body r n W E I) as [_ X].
  - now destruct (rd_close_inv body r n W E I) as [_ X].
Qed.
End Facts.
