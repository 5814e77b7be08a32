(** C94: what stations announce about themselves is known to those who listen. The specification is SpecAnnounce.v. *)
From Verif Require Import Base SpecBase Elements SpecElements ElementTypes SpecElementTypes Suites Rsn SpecRsn Mgmt SpecMgmt Generic SpecGeneric SpecNoise SpecScan SpecAnnounce
  AnnounceFacts AnnounceFacts2.

(** For every type of elements whose values survive writing and reading, every listener, and whatever is on the air for however long: the listener knows of every station what
    it announced last among the frames that arrived undamaged, including that it announced nothing, and knows nothing of the others. *)
Theorem C94_known : forall (cfg : Cfg) (V X : Type) (e : ElementType V X) ok conv l air said a, can_announce e ok conv -> typed_arms l -> on_the_air e ok l air said ->
  remembers l air a = Ok (option_map (fun v => Ok (option_map conv v)) (latest a said)).
Proof. exact @remembered. Qed.
Print Assumptions C94_known.
(** It may listen to eleven kinds of management frames. *)
Theorem C94_kinds : forall (cfg : Cfg),
  with_elements Beacon 0 8 ok_beacon fixed_beacon bb_elements with_beacon bb_elements /\
  with_elements ProbeResponse 1 5 ok_beacon fixed_beacon bb_elements with_beacon bb_elements /\
  with_elements ProbeRequest 2 4 ok_any fixed_probe pq_elements with_probe pq_elements /\
  with_elements Authentication 3 11 ok_auth fixed_auth au_elements with_auth au_elements /\
  with_elements AssociationRequest 4 0 ok_assoc_req fixed_assoc_req aq_elements with_assoc_req aq_elements /\
  with_elements AssociationResponse 5 1 ok_assoc_resp fixed_assoc_resp ar_elements with_assoc_resp ar_elements /\
  with_elements Deauthentication 6 12 ok_reason fixed_reason rb_elements with_reason rb_elements /\
  with_elements Disassociation 7 10 ok_reason fixed_reason rb_elements with_reason rb_elements /\
  with_elements MeshPeeringOpen 9 13 ok_open fixed_open mo_elements with_open mo_elements /\
  with_elements MeshPeeringConfirm 10 13 ok_confirm fixed_confirm mc_elements with_confirm mc_elements /\
  with_elements MeshPeeringClose 11 13 ok_any fixed_close ml_elements with_close ml_elements.
Proof. exact @frame_kinds. Qed.
Print Assumptions C94_kinds.
(** These types of elements can be announced; what is read is what was written, for RSN elements as far as the crate reads it. *)
Theorem C94_types : forall (cfg : Cfg),
  can_announce SSIDElement ok_ssid (fun x => x) /\ can_announce MeshIDElement ok_ssid (fun x => x) /\
  can_announce SupportedRatesElement (ok_rates 8) (fun x => x) /\ can_announce ExtendedSupportedRatesElement (ok_rates 255) (fun x => x) /\
  can_announce DSSSParameterSetElement u8 (fun x => x) /\ can_announce IBSSParameterSetElement u16 (fun x => x) /\ can_announce BSSLoadElement ok_bss_load (fun x => x) /\
  can_announce HTCapabilitiesElement ok_ht_cap (fun x => x) /\ can_announce VHTCapabilitiesElement ok_vht_cap (fun x => x) /\
  can_announce VHTOperationElement ok_vht_op (fun x => x) /\ can_announce MeshConfigurationElement ok_mesh_conf (fun x => x) /\
  can_announce OWETransitionModeElement owe_ok (fun x => x) /\
  (forall v, ok_security v -> pmkid_count v = 0 -> caps_readable v -> can_announce RsnElement (fun x => shows x v) (fun _ => received v)).
Proof. exact @types_announced. Qed.
Print Assumptions C94_types.
(** Every value of them can be announced, behind any other elements, as long as it fits into an element. *)
Theorem C94_can_say : forall (cfg : Cfg) (V X : Type) (e : ElementType V X) ok conv l a front v, can_announce e ok conv -> wf_id (et_id e) -> typed_arms l ->
  In (0, mkArm _ _ (mgmt_kind Beacon) (rd_mgmt Beacon) (hear e bb_elements)) l -> address a -> ok v -> 0 < et_measure e v -> length (id_prefix (et_id e)) + et_measure e v <= 255 ->
  Forall (fun r => (re_type r < 256)%N /\ wf_bytes (re_slice r) /\ fits r /\ ~ is_element (et_id e) r) front -> exists f, announces e ok l a (Some v) f.
Proof. exact @can_say. Qed.
Print Assumptions C94_can_say.
(** A BSS load that grows from a beacon to a probe response; a station that announces none; a damaged beacon. *)
Example C94_ex : forall (cfg : Cfg), can_announce BSSLoadElement ok_bss_load (fun x => x) /\ typed_arms load_arms /\
  on_the_air BSSLoadElement ok_bss_load load_arms [busy_beacon; other_beacon; busier_response; broken_beacon]
    [(repeat 2%N 6, Some load5); (repeat 4%N 6, None); (repeat 2%N 6, Some load7)].
Proof.
  intros cfg. split; [|split; [exact load_typed|exact ex_air]]. pose proof (@types_announced cfg) as (_ & _ & _ & _ & _ & _ & H & _). exact H.
Qed.
Example C94_known_ex : forall (cfg : Cfg), remembers load_arms [busy_beacon; other_beacon; busier_response; broken_beacon] (repeat 2%N 6) = Ok (Some (Ok (Some load7))) /\
  remembers load_arms [busy_beacon; other_beacon; busier_response; broken_beacon] (repeat 4%N 6) = Ok (Some (Ok None)) /\
  remembers load_arms [busy_beacon; other_beacon; busier_response; broken_beacon] (repeat 5%N 6) = Ok None.
Proof. intros cfg. destruct cfg as [[] [] []]; split; [|split| |split| |split| |split| |split| |split| |split| |split]; vm_compute; reflexivity. Qed.
