(** C63: which received frames are accepted, and what more bytes at the end change. *)
From Verif Require Import Base BaseFacts SpecBase Crc Common Elements ElementTypes Mgmt SpecMgmt SpecGeneric Data SpecData GenericFacts3 SpecAccept AcceptFacts.

(** [Accepted t body_ok] (SpecAccept.v): accepted are exactly the frames of type management with a complete header (and correct FCS, if
    there is one) whose body satisfies [body_ok]. [fixed_fields k]: there are [k] bytes in front of the elements (and at least one of
    elements if scroll refuses empty reads at the end of data). *)
Theorem C63_mgmt : forall (cfg : Cfg), Accepted Beacon (fixed_fields 12) /\ Accepted ProbeResponse (fixed_fields 12) /\
  Accepted Authentication (fixed_fields 6) /\ Accepted AssociationRequest (fixed_fields 4) /\
  Accepted AssociationResponse (fun body => fixed_fields 6 body /\ (aid_field body = 0%N \/ accepted_aid (aid_field body))) /\
  Accepted Deauthentication (fixed_fields 2) /\ Accepted Disassociation (fixed_fields 2) /\ Accepted ProbeRequest (fixed_fields 0).
Proof. exact @accepted_elements. Qed.
Print Assumptions C63_mgmt.
Theorem C63_action : forall (cfg : Cfg), Accepted RawAction (fun body => 1 <= length body) /\
  Accepted RawVendorSpecificAction (fun body => 4 <= length body /\ byte body 0 = 127%N) /\
  Accepted MeshPeeringOpen (fun body => fixed_fields 4 body /\ self_protected 1 body) /\
  Accepted MeshPeeringConfirm (fun body => fixed_fields 6 body /\ self_protected 2 body /\ accepted_aid (aid_field body)) /\
  Accepted MeshPeeringClose (fun body => fixed_fields 2 body /\ self_protected 3 body).
Proof. exact @accepted_actions. Qed.
Print Assumptions C63_action.
Theorem C63_data : forall (cfg : Cfg) fcs bs, wf_bytes bs ->
  (exists x n, rd_data fcs bs = Ok (x, n)) <-> exists m, bs = enc_frame fcs m /\ complete_data m.
Proof. exact @data_accepted. Qed.
Print Assumptions C63_data.
Example C63_ex (cfg : Cfg) : let m := (GenericFacts3.beacon_like ++ [0; 1; 65])%N in
  wf_bytesb m = true /\ complete_mgmt m /\ fixed_fields 12 (mgmt_body (m ++ repeat 0%N 10)) /\ ~ complete_mgmt (firstn 23 m) /\
  accepted_aid 49153 /\ accepted_aid 2007 /\ ~ accepted_aid 2008 /\ ~ accepted_aid 16384 /\
  complete_data (8%N :: repeat 0%N 23) /\ ~ complete_data (0x88%N :: repeat 0%N 24).
Proof.
  assert (A : forall a b c : N, (a <= b <= c)%N <-> ((a <=? b) && (b <=? c))%N = true)
    by (intros; rewrite Bool.andb_true_iff, !N.leb_le; tauto).
  split; [reflexivity|]. split; [split; [reflexivity|cbn; lia]|]. split; [split; [cbn; lia|right; discriminate]|].
  split; [intros [_ L]; cbn in L; lia|]. unfold accepted_aid. rewrite !A.
  repeat (split; [reflexivity || discriminate|]).
  split; [split; [reflexivity|cbn; lia]|]. intros [_ L]. cbn in L. lia.
Qed.

(** [Extends t extend] (SpecAccept.v): bytes added behind an accepted frame without FCS change neither the header nor the fixed fields;
    they lengthen the elements or the payload. *)
Theorem C63_longer : forall (cfg : Cfg),
  Extends Beacon (fun r more => with_beacon r (bb_elements r ++ more)) /\
  Extends ProbeResponse (fun r more => with_beacon r (bb_elements r ++ more)) /\
  Extends Authentication (fun r more => with_auth r (au_elements r ++ more)) /\
  Extends AssociationRequest (fun r more => with_assoc_req r (aq_elements r ++ more)) /\
  Extends AssociationResponse (fun r more => with_assoc_resp r (ar_elements r ++ more)) /\
  Extends Deauthentication (fun r more => with_reason r (rb_elements r ++ more)) /\
  Extends Disassociation (fun r more => with_reason r (rb_elements r ++ more)) /\
  Extends ProbeRequest (fun r more => with_probe r (pq_elements r ++ more)).
Proof. exact @extends_elements. Qed.
Print Assumptions C63_longer.
Theorem C63_longer_action : forall (cfg : Cfg),
  Extends RawAction (fun r more => mkRA (ra_category r) (ra_payload r ++ more)) /\
  Extends RawVendorSpecificAction (fun r more => with_vendor r (va_payload r ++ more)) /\
  Extends MeshPeeringOpen (fun r more => with_open r (mo_elements r ++ more)) /\
  Extends MeshPeeringConfirm (fun r more => with_confirm r (mc_elements r ++ more)) /\
  Extends MeshPeeringClose (fun r more => with_close r (ml_elements r ++ more)).
Proof. exact @extends_actions. Qed.
Print Assumptions C63_longer_action.
Theorem C63_longer_data : forall (cfg : Cfg) bs more h p n, rd_data false bs = Ok ((h, p), n) ->
  rd_data false (bs ++ more) = Ok ((h, option_map (fun q => q ++ more) p), n).
Proof. exact @data_extends. Qed.
Print Assumptions C63_longer_data.
(** Elements: bytes added behind them only add further elements, and what was found is still found. Seen the other way round, the elements
    of a truncated frame are the first elements of the whole one. *)
Theorem C63_longer_elements : forall (cfg : Cfg) a more, exists xs zs, raw_elements a = Ok xs /\ raw_elements (a ++ more) = Ok (xs ++ zs).
Proof. exact @raw_elements_ext. Qed.
Print Assumptions C63_longer_elements.
Theorem C63_longer_lookup : forall (cfg : Cfg) W R (t : ElementType W R) a more,
  (forall v, get_first_element t a = Ok (Some v) -> get_first_element t (a ++ more) = Ok (Some v)) /\
  (forall l, get_matching_elements t (a ++ more) = Ok l -> exists l1 l2, get_matching_elements t a = Ok l1 /\ l = l1 ++ l2).
Proof. exact (fun cfg W R t a more => conj (fun v => first_element_ext t a more v) (fun l => matching_elements_ext t a more l)). Qed.
Print Assumptions C63_longer_lookup.
Example C63_longer_ex (cfg : Cfg) : raw_elements [3; 1; 6; 1]%N = Ok [mkRaw 3 [6]]%N /\
  raw_elements ([3; 1; 6; 1] ++ [1; 2])%N = Ok [mkRaw 3 [6]; mkRaw 1 [2]]%N /\
  (exists x, rd_mgmt ProbeRequest false (GenericFacts3.beacon_like ++ [0; 1; 65])%N = Ok x) /\
  get_first_element SSIDElement [0; 1; 65; 3]%N = Ok (Some [65]%N).
Proof. destruct cfg as [[] [] []]; (split; [vm_compute; reflexivity|]; split; [vm_compute; reflexivity|]; split; [eexists|]; vm_compute; reflexivity). Qed.
