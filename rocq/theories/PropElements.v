(** C09 to C12: the element containers. *)
From Verif Require Import Base SpecBase BaseFacts Bits Layouts Enums Utf8 SpecUtf8 Utf8Facts Elements SpecElements ElementsFacts
  ElementTypes SpecElementTypes ElementTypesFacts ElementTypesFacts2 ElementTypesFacts3 ElementTypesFacts4 LookupFacts Mgmt Vendor SpecVendor VendorFacts.

(** ** C09: iteration over arbitrary bytes *)
(** Iterating terminates without panic; the yielded elements are exactly the front of the body,
    without gaps, and what is left is no complete element. *)
Theorem C09_iteration : forall (cfg : Cfg) (bs : bytes), exists es tail,
  raw_elements bs = Ok es /\ bs = enc_elements es ++ tail /\ iteration_end tail.
Proof. exact @raw_elements_spec. Qed.
Print Assumptions C09_iteration.
(** two elements and an incomplete third *)
Example C09_iteration_ex (cfg : Cfg) :
  raw_elements [0; 4; 84; 101; 115; 116; 3; 1; 6; 1; 8; 130]%N = Ok [mkRaw 0 [84; 101; 115; 116]; mkRaw 3 [6]]%N.
Proof. destruct cfg as [[] [] []]; reflexivity. Qed.

(** ** C10: sequences of elements *)
Theorem C10_round_trip : forall (cfg : Cfg) es tail, Forall fits es ->
  strict_end = false -> no_element tail -> raw_elements (enc_elements es ++ tail) = Ok es.
Proof. exact (fun cfg es tail F S T => @raw_elements_enc cfg es tail F (or_introl S) (or_introl T)). Qed.
Print Assumptions C10_round_trip.
Example C10_ex (cfg : Cfg) : Forall fits [mkRaw 0 []; mkRaw 255 [35; 1]; mkRaw 221 [0; 80; 242; 2; 1]]%N /\ no_element [].
Proof. repeat constructor; cbn; lia. Qed.
(** If scroll refuses empty reads at the end of a slice, the claim holds for every sequence whose
    last element has information (or is followed by something) ... *)
Theorem C10_strict_end_partial : forall (cfg : Cfg) es tail, Forall fits es ->
  end_visible es tail -> iteration_end tail -> raw_elements (enc_elements es ++ tail) = Ok es.
Proof. exact @raw_elements_enc. Qed.
Print Assumptions C10_strict_end_partial.
(** ... and a final empty element (a hidden SSID, for example) is lost. *)
Theorem C10_strict_end_refuted : forall (cfg : Cfg), strict_end = true ->
  exists es, Forall fits es /\ es <> [] /\ raw_elements (enc_elements es) = Ok [].
Proof. exact @strict_end_hides. Qed.
Print Assumptions C10_strict_end_refuted.

(** Chains write that format: every chain of typed and raw items writes the elements in order. *)
Theorem C10_chain_format : forall (cfg : Cfg) c raws,
  Forall2 item_element (chain_items c) raws -> Forall wf_item (chain_items c) -> Forall fits raws ->
  Writes (wr_chain c) (enc_elements raws).
Proof. exact @wr_chain_W. Qed.
Print Assumptions C10_chain_format.

(** An element whose information is longer than its length field can say is refused, not truncated:
    no chain with such an element is ever written. *)
Theorem C10_too_long : forall (cfg : Cfg) c raws,
  Forall2 item_element (chain_items c) raws -> Forall wf_item (chain_items c) -> ~ Forall fits raws ->
  forall buf, exists e, wr_chain c buf = Err e.
Proof. exact @wr_chain_long. Qed.
Print Assumptions C10_too_long.
Example C10_too_long_ex (cfg : Cfg) :
  let c := chain_of (RawItem (mkRaw 1 [130]))%N [RawItem (mkRaw 221 (repeat 0 256))]%N in
  Forall2 item_element (chain_items c) [mkRaw 1 [130]; mkRaw 221 (repeat 0 256)]%N /\ Forall wf_item (chain_items c) /\
  ~ Forall fits [mkRaw 1 [130]; mkRaw 221 (repeat 0 256)]%N.
Proof.
  cbn zeta. split; [repeat constructor|]. split; [repeat constructor|].
  intros F. inversion F as [|? ? _ F']. inversion F' as [|? ? X _]. unfold fits in X. vm_compute in X. lia.
Qed.

(** ** C11: chains *)
(** The announced length of a chain that ends in a typed element is the written length. *)
Theorem C11_measure_partial : forall (cfg : Cfg) c raws,
  Forall2 item_element (chain_items c) raws -> Forall wf_item (chain_items c) -> Forall fits raws ->
  Writes (wr_chain c) (enc_elements raws) /\
  (typed_end c -> chain_measure c = length (enc_elements raws)) /\
  (~ typed_end c -> chain_measure c + 2 = length (enc_elements raws)).
Proof. exact (fun cfg c raws I W F => conj (@wr_chain_W cfg c raws I W F) (@chain_measure_spec cfg c raws I W F)). Qed.
Print Assumptions C11_measure_partial.
(** The full claim is false: with a raw element at the end two bytes are missing. *)
Theorem C11_measure_refuted : exists c, forall (cfg : Cfg), exists bs,
  Writes (wr_chain c) bs /\ chain_measure c < length bs.
Proof. exact raw_end_measure. Qed.
Print Assumptions C11_measure_refuted.
Theorem C11_append : forall c i, chain_items (chain_append c i) = chain_items c ++ [i].
Proof. exact chain_append_items. Qed.
Print Assumptions C11_append.
(** [element_chain!] lists its elements in order *)
Theorem C11_macro : forall i l, chain_items (chain_of i l) = i :: l.
Proof. exact chain_of_items. Qed.
Print Assumptions C11_macro.
Example C11_ex (cfg : Cfg) :
  let c := chain_of (Typed (elem_of DSSSParameterSetElement 6%N)) [RawItem (mkRaw 42 [0]%N); Typed (elem_of LifetimeKde 3600%N)] in
  Forall2 item_element (chain_items c) [mkRaw 3 [6]; mkRaw 42 [0]; mkRaw 221 [0; 15; 172; 7; 0; 0; 14; 16]]%N /\
  Forall wf_item (chain_items c) /\ Forall fits [mkRaw 3 [6]; mkRaw 42 [0]; mkRaw 221 [0; 15; 172; 7; 0; 0; 14; 16]]%N /\ typed_end c.
Proof.
  cbn zeta. split; [|repeat split; repeat constructor; cbn; lia].
  constructor; [|constructor; [reflexivity|constructor; [|constructor]]].
  - exists (Id 3), [6]%N. split; [|reflexivity]. split; [reflexivity|]. split; [reflexivity|].
    now apply (fl_write _ _ _ _ _ _ dsss_fixed).
  - exists (VendorSpecific [0; 15; 172; 7]%N), [0; 0; 14; 16]%N. split; [|reflexivity]. split; [reflexivity|]. split; [reflexivity|].
    now apply (fl_write _ _ _ _ _ _ lifetime_fixed 3600%N).
Qed.

(** ** C12: lookup *)
Theorem C12_lookup : forall (cfg : Cfg) (W R : Type) (t : ElementType W R) bs,
  lookup_id (et_id t) -> NoPanic (et_read t) ->
  exists es os, raw_elements bs = Ok es /\ Forall2 (parsed t) es os /\
    get_matching_elements t bs = Ok (somes os) /\ get_first_element t bs = Ok (hd_error (somes os)).
Proof. exact @lookup_spec. Qed.
Print Assumptions C12_lookup.
Theorem C12_lookup_raw : forall (cfg : Cfg) bs id, lookup_id id -> exists es,
  raw_elements bs = Ok es /\
  exists f, (forall raw, f raw = true <-> is_element id raw) /\
  get_matching_elements_raw bs id = Ok (filter f es) /\
  get_first_element_raw bs id = Ok (hd_error (filter f es)).
Proof. exact @lookup_raw_spec. Qed.
Print Assumptions C12_lookup_raw.
(** An element has one identifier of each kind: asking for one type never returns an element
    written with another identifier, unless one vendor prefix extends the other. *)
Theorem C12_disjoint : forall id id' raw, is_element id raw -> is_element id' raw ->
  id = id' \/ (exists p q, id = VendorSpecific p /\ id' = VendorSpecific q /\
                 ((exists r, p = q ++ r) \/ exists r, q = p ++ r))
  \/ (id = Id 221 \/ id = Id 255 \/ id' = Id 221 \/ id' = Id 255)%N.
Proof. exact is_element_disjoint. Qed.
Print Assumptions C12_disjoint.
(** What a chain wrote is found again: all values of the type, in order, and nothing else. *)
Theorem C12_written : forall (cfg : Cfg) (W R : Type) (t : ElementType W R) ok conv c raws os,
  lookup_id (et_id t) -> NoPanic (et_read t) -> RoundTrip t ok conv ->
  Forall2 item_element (chain_items c) raws -> Forall wf_item (chain_items c) -> Forall fits raws -> end_visible raws [] ->
  holds_values t ok (chain_items c) os ->
  Writes (wr_chain c) (enc_elements raws) /\
  get_matching_elements t (enc_elements raws) = Ok (map conv (somes os)) /\
  get_first_element t (enc_elements raws) = Ok (option_map conv (hd_error (somes os))).
Proof. exact @lookup_written. Qed.
Print Assumptions C12_written.
Example C12_written_ex (cfg : Cfg) :
  let c := chain_of (Typed (elem_of DSSSParameterSetElement 6%N)) [Typed (elem_of SSIDElement [84; 101; 115; 116]%N)] in
  holds_values SSIDElement ok_ssid (chain_items c) [None; Some [84; 101; 115; 116]%N] /\ lookup_id (et_id SSIDElement) /\
  NoPanic (et_read SSIDElement) /\ RoundTrip SSIDElement ok_ssid (fun s => s).
Proof.
  cbn zeta. split; [|split; [exact I|split; [exact rd_ssid_NP|apply ssid_round_trip; now left]]].
  constructor; [|constructor; [|constructor]].
  - intros raw (id & body & (E & _) & ->) (b & H). cbn in E. subst id. discriminate.
  - split; [reflexivity|]. split; [|right; discriminate]. split; [repeat constructor; cbn; lia|]. split; [cbn; lia|].
    apply utf8_spec. reflexivity.
Qed.
(** The types of the crate qualify. *)
Theorem C12_types : forall (cfg : Cfg),
  NoPanic (et_read SSIDElement) /\ NoPanic (et_read MeshIDElement) /\ NoPanic (et_read SupportedRatesElement) /\
  NoPanic (et_read ExtendedSupportedRatesElement) /\ NoPanic (et_read DSSSParameterSetElement) /\
  NoPanic (et_read IBSSParameterSetElement) /\ NoPanic (et_read BSSLoadElement) /\ NoPanic (et_read HTCapabilitiesElement) /\
  NoPanic (et_read HTOperationElement) /\ NoPanic (et_read VHTCapabilitiesElement) /\ NoPanic (et_read VHTOperationElement) /\
  NoPanic (et_read MeshConfigurationElement) /\ NoPanic (et_read OWETransitionModeElement) /\ NoPanic (et_read GtkKde) /\
  NoPanic (et_read LifetimeKde) /\ NoPanic (et_read MacAddressKde) /\ NoPanic (et_read PmkidKde) /\ NoPanic (et_read NonceKde) /\
  NoPanic (et_read VendorSpecificElement).
Proof. exact @element_types_no_panic. Qed.
Print Assumptions C12_types.
(** One type does not: looking up a mesh peering element in received bytes can panic. *)
Theorem C12_no_panic_refuted : forall (cfg : Cfg), exists bs, wf_bytes bs /\ get_first_element MeshPeeringElement bs = Panic.
Proof. exact @peering_lookup_panic. Qed.
Print Assumptions C12_no_panic_refuted.
(** Exactly when a lookup panics, for every type: some element of the type (for the first element: in front of all that can
    be read) makes the reader of the type panic. *)
Theorem C12_panics_partial : forall (cfg : Cfg) (W R : Type) (t : ElementType W R) bs es, lookup_id (et_id t) -> raw_elements bs = Ok es ->
  get_matching_elements t bs = Panic <-> exists body, In (element (et_id t) body) es /\ pread (et_read t) body 0 = Panic.
Proof. exact @matching_panics. Qed.
Print Assumptions C12_panics_partial.
Theorem C12_first_panics_partial : forall (cfg : Cfg) (W R : Type) (t : ElementType W R) bs es, lookup_id (et_id t) -> raw_elements bs = Ok es ->
  get_first_element t bs = Panic <->
  exists es1 body es2, es = es1 ++ element (et_id t) body :: es2 /\ Forall (fun raw => parsed t raw None) es1 /\ pread (et_read t) body 0 = Panic.
Proof. exact @first_panics. Qed.
Print Assumptions C12_first_panics_partial.
(** For mesh peering elements: one of more than 24 bytes, and for the first element no readable one (of at least 4 bytes) in front of it. *)
Theorem C12_peering_panics_partial : forall (cfg : Cfg) bs es, wf_bytes bs -> raw_elements bs = Ok es ->
  get_matching_elements MeshPeeringElement bs = Panic <-> exists raw, In raw es /\ re_type raw = 117%N /\ 24 < length (re_slice raw).
Proof. exact @peering_matching_panics. Qed.
Print Assumptions C12_peering_panics_partial.
Theorem C12_peering_first_panics_partial : forall (cfg : Cfg) bs es, wf_bytes bs -> raw_elements bs = Ok es ->
  get_first_element MeshPeeringElement bs = Panic <->
  exists es1 raw es2, es = es1 ++ raw :: es2 /\ re_type raw = 117%N /\ 24 < length (re_slice raw) /\
    Forall (fun e => re_type e = 117%N -> length (re_slice e) < 4) es1.
Proof. exact @peering_first_panics. Qed.
Print Assumptions C12_peering_first_panics_partial.
(** a readable element, then one of 25 bytes: only asking for all of them panics *)
Example C12_peering_panics_ex : forall (cfg : Cfg), let bs := ([117; 4; 0; 0; 1; 0; 117; 25] ++ repeat 0 25)%N%list in
  raw_elements bs = Ok [mkRaw 117 [0; 0; 1; 0]; mkRaw 117 (repeat 0 25)]%N /\
  get_matching_elements MeshPeeringElement bs = Panic /\ exists p, get_first_element MeshPeeringElement bs = Ok (Some p).
Proof. intros [[] [] []]; repeat split; try reflexivity; eexists; vm_compute; reflexivity. Qed.
(** [parse_raw_element_as] on a raw vendor element shorter than the prefix panics. *)
Theorem C12_parse_raw_refuted : forall (cfg : Cfg), exists raw, parse_raw_element OWETransitionModeElement raw = Panic.
Proof. exact @short_vendor_panic. Qed.
Print Assumptions C12_parse_raw_refuted.
(** Nothing else makes it panic if the reader of the type does not. *)
Theorem C12_parse_raw_partial : forall (cfg : Cfg) (W R : Type) (t : ElementType W R) raw, NoPanic (et_read t) ->
  parse_raw_element t raw = Panic <->
  exists p, et_id t = VendorSpecific p /\ length (re_slice raw) < length p /\ (strict_end = false \/ re_slice raw <> []).
Proof. exact @parse_raw_panics. Qed.
Print Assumptions C12_parse_raw_partial.
(** A vendor specific element built with a prefix has the prefix and the payload as its information, exactly like an element type identified
    by that prefix; both are written to any buffer with the same outcome and announce the same length. *)
Theorem C12_prefixed : forall (cfg : Cfg) prefix payload body, Writes (c_write payload) body -> c_measure payload = length body ->
  writes_element (new_prefixed prefix payload) (Id 221) (prefix ++ body) /\
  element (Id 221) (prefix ++ body) = element (VendorSpecific prefix) body.
Proof. exact @prefixed_format. Qed.
Print Assumptions C12_prefixed.
Theorem C12_prefixed_same : forall (cfg : Cfg) prefix payload,
  (forall buf, wr_wrapped (new_prefixed prefix payload) buf = wr_wrapped (mkElem (VendorSpecific prefix) (c_measure payload) (c_write payload)) buf) /\
  wrapped_measure (new_prefixed prefix payload) = wrapped_measure (mkElem (VendorSpecific prefix) (c_measure payload) (c_write payload)).
Proof. exact @prefixed_same. Qed.
Print Assumptions C12_prefixed_same.
(** Asking for vendor specific elements gives the contents of all of them, whoever defined them ... *)
Theorem C12_vendor_found : forall (cfg : Cfg) bs es, raw_elements bs = Ok es ->
  get_matching_elements VendorSpecificElement bs = Ok (vendor_contents es).
Proof. exact @vendor_found. Qed.
Print Assumptions C12_vendor_found.
(** ... one built with a prefix among them, whose payload the prefix gives back ... *)
Theorem C12_prefixed_found : forall (cfg : Cfg) c raws prefix payload body,
  Forall2 item_element (chain_items c) raws -> Forall wf_item (chain_items c) -> Forall fits raws -> end_visible raws [] ->
  In (Typed (new_prefixed prefix payload)) (chain_items c) -> Writes (c_write payload) body -> c_measure payload = length body ->
  strict_end = false \/ prefix ++ body <> [] ->
  exists found, Writes (wr_chain c) (enc_elements raws) /\
    get_matching_elements VendorSpecificElement (enc_elements raws) = Ok found /\ In (prefix ++ body) found /\
    get_payload_if_prefix_matches (prefix ++ body) prefix = Some body.
Proof. exact @prefixed_found. Qed.
Print Assumptions C12_prefixed_found.
(** ... and asking for a type identified by a prefix gives what reading behind the prefix gives for those that have it. *)
Theorem C12_prefix_found : forall (cfg : Cfg) (W R : Type) (t : ElementType W R) p bs es,
  et_id t = VendorSpecific p -> p <> [] -> NoPanic (et_read t) -> raw_elements bs = Ok es ->
  get_matching_elements t bs = Ok (with_prefix p (fun b => match pread (et_read t) b 0 with Ok x => Some x | _ => None end) (vendor_contents es)).
Proof. exact @prefix_found. Qed.
Print Assumptions C12_prefix_found.
Example C12_prefixed_ex : forall (cfg : Cfg),
  let c := chain_of (Typed (new_prefixed [0; 15; 172; 7]%N (c_bytes [0; 0; 14; 16]%N))) [Typed (elem_of DSSSParameterSetElement 6%N);
                     Typed (new_prefixed [0; 80; 242]%N (c_bytes [1]%N))] in
  exists bs n, wr_chain c (repeat 0 40%nat)%N = Ok (bs, n) /\ n = 19 /\ raw_elements (firstn n bs) = Ok [mkRaw 221 [0; 15; 172; 7; 0; 0; 14; 16]; mkRaw 3 [6]; mkRaw 221 [0; 80; 242; 1]]%N /\
  get_matching_elements VendorSpecificElement (firstn n bs) = Ok [[0; 15; 172; 7; 0; 0; 14; 16]; [0; 80; 242; 1]]%N /\
  get_matching_elements LifetimeKde (firstn n bs) = Ok [3600]%N.
Proof. intros [[] [] []]; (eexists; eexists; split; [vm_compute; reflexivity|]); (split; [reflexivity|]); (split; [vm_compute; reflexivity|]); split; vm_compute; reflexivity. Qed.
