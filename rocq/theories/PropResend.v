(** C76: elements that are received, read with their type and sent again *)
From Verif Require Import Base BaseFacts SpecBase Layouts Text Elements SpecElements ElementTypes SpecElementTypes ElementTypesFacts ElementTypesFacts3 Tim Accessors
  Rsn SpecRsn SpecResend SpecResend2 ResendFacts ResendFacts2 ResendFacts3 ResendFacts4.

(** [Resent t back kept] (SpecResend.v): a value read from any received body is written as [kept body], with the announced length, and
    read from it as the same value. Types with a variable size keep all of the body, *)
Theorem C76_text : forall (cfg : Cfg) t, t = SSIDElement \/ t = MeshIDElement -> Resent t (fun x => x) all_of.
Proof. exact @ssid_resent. Qed.
Print Assumptions C76_text.
Theorem C76_rates : forall (cfg : Cfg),
  Resent SupportedRatesElement (fun l => l) all_of /\ Resent ExtendedSupportedRatesElement (fun l => l) all_of.
Proof. exact (fun cfg => conj rates_resent extended_rates_resent). Qed.
Print Assumptions C76_rates.
(** also when the received element is written as it is, from its iterator *)
Theorem C76_rates_iterator : forall (cfg : Cfg) t bs x n, t = SupportedRatesElement \/ t = ExtendedSupportedRatesElement -> wf_bytes bs -> length bs <= 255 ->
  et_read t bs = Ok (x, n) -> Writes (rates_write t (Iter x)) bs.
Proof. exact @rates_iter_resent. Qed.
Print Assumptions C76_rates_iterator.
Theorem C76_tim : forall (cfg : Cfg), Resent TIMElement (fun x => x) all_of.
Proof. exact @tim_resent. Qed.
Print Assumptions C76_tim.
Theorem C76_mesh_peering : forall (cfg : Cfg), Resent MeshPeeringElement (fun x => x) all_of.
Proof. exact @peering_resent. Qed.
Print Assumptions C76_mesh_peering.
Theorem C76_gtk : forall (cfg : Cfg), Resent GtkKde (fun x => x) all_of.
Proof. exact @gtk_resent. Qed.
Print Assumptions C76_gtk.
Theorem C76_vendor : forall (cfg : Cfg), Resent VendorSpecificElement (fun x => x) all_of.
Proof. exact @vendor_resent. Qed.
Print Assumptions C76_vendor.
(** types with a fixed size the bytes of that size, *)
Theorem C76_fixed : forall (cfg : Cfg),
  Resent DSSSParameterSetElement (fun x => x) (firstn 1) /\ Resent IBSSParameterSetElement (fun x => x) (firstn 2) /\
  Resent BSSLoadElement (fun x => x) (firstn 5) /\ Resent VHTCapabilitiesElement (fun x => x) (firstn 12) /\
  Resent VHTOperationElement (fun x => x) (firstn 5) /\ Resent MeshConfigurationElement (fun x => x) (firstn 7) /\
  Resent MacAddressKde (fun x => x) (firstn 6) /\ Resent PmkidKde (fun x => x) (firstn 16) /\
  Resent NonceKde (fun x => x) (firstn 32) /\ Resent LifetimeKde (fun x => x) (firstn 4).
Proof. exact @all_fixed_resent. Qed.
Print Assumptions C76_fixed.
(** HT capabilities also lose their reserved bytes, *)
Theorem C76_ht_capabilities : forall (cfg : Cfg), Resent HTCapabilitiesElement (fun x => x) kept_ht_cap.
Proof. exact @ht_cap_resent. Qed.
Print Assumptions C76_ht_capabilities.
(** OWE transition mode what is behind the SSID or the channel. *)
Theorem C76_owe_partial : forall (cfg : Cfg), strict_end = false -> Resent OWETransitionModeElement (fun x => x) kept_owe.
Proof. exact @owe_resent. Qed.
Print Assumptions C76_owe_partial.
(** What is missing: scroll versions that refuse empty reads at the end, and an element with an empty SSID and one byte behind it. *)
Theorem C76_owe_strict_end_refuted : forall (cfg : Cfg), strict_end = true -> exists bs x n k e, wf_bytes bs /\ rd_owe bs = Ok (x, n) /\
  Writes (wr_owe x) k /\ rd_owe k = Err e.
Proof. exact @owe_strict. Qed.
Print Assumptions C76_owe_strict_end_refuted.
(** What is written and read again for every received body and both kinds of scroll: the same, unless the body ends there. *)
Theorem C76_owe_exact : forall (cfg : Cfg) bs x n, wf_bytes bs -> rd_owe bs = Ok (x, n) ->
  Writes (wr_owe x) (kept_owe bs) /\ et_measure OWETransitionModeElement x = length (kept_owe bs) /\
  rd_owe (kept_owe bs) =
    if strict_end && match x with mkOWE _ [] None => true | _ => false end then Err BadOffset else Ok (x, length (kept_owe bs)).
Proof. exact @owe_again. Qed.
Print Assumptions C76_owe_exact.
Example C76_ex (cfg : Cfg) :
  rd_tim [0; 1; 0; 0]%N = Ok (mkTIM 0 1 (Some (mkTB 0%N (Some (BSlice [0]%N)))), 4) /\
  rd_vht_op [1; 42; 0; 0xfc; 0xff; 9]%N = Ok (mkVHTOp Enums.Cw_EightyOneSixtyOrEightyPlusEightyMhz 42 0 0xfffc, 5) /\
  kept_ht_cap (repeat 7 17 ++ [1; 2] ++ repeat 7 9)%N = (repeat 7 17 ++ [0; 0] ++ repeat 7 7)%N /\
  kept_owe ([2; 0; 0; 0; 0; 1] ++ [3; 79; 87; 69] ++ [81; 6; 9])%N = ([2; 0; 0; 0; 0; 1] ++ [3; 79; 87; 69] ++ [81; 6])%N.
Proof. destruct cfg as [[] [] []]; vm_compute; repeat split. Qed.

(** RSN: the bytes taken as fields ([raw_enc y]; C17 says which these are) are written again, *)
Theorem C76_rsn_partial : forall (cfg : Cfg) bs y n, native_le = true -> strict_end = false -> wf_bytes bs -> length bs <= 255 -> rd_rsn bs = Ok (y, n) ->
  pmkid_bytes y = [] -> Writes (wr_rsn y) (raw_enc y) /\ rsn_measure y = length (raw_enc y) /\ ReadsAll rd_rsn (raw_enc y) y.
Proof. exact @rsn_resent. Qed.
Print Assumptions C76_rsn_partial.
(** Exactly: for every byte order, kind of scroll and list of PMKIDs the bytes taken as fields are written again, the capabilities little
    endian, and read as the same value; on big endian machines the two bytes of the capabilities are exchanged each time, and scroll
    versions that refuse empty reads at the end lose an empty list there (SpecResend2.v). *)
Theorem C76_rsn_exact : forall (cfg : Cfg) bs y n, wf_bytes bs -> (N.of_nat (length bs) < 65536)%N -> rd_rsn bs = Ok (y, n) ->
  let z := swapped_caps y in
  Writes (wr_rsn y) (raw_enc z) /\ rd_rsn (raw_enc z) = Ok (without_empty_end z, length (raw_enc z)).
Proof. exact @rsn_again_any. Qed.
Print Assumptions C76_rsn_exact.
Example C76_rsn_exact_ex (cfg : Cfg) :
  let y := mkRsn (Some Suites.Cs_Ccmp128) (Some (Iter [])) None None None None in
  rd_rsn [1; 0; 0; 0x0f; 0xac; 4; 0; 0; 9]%N = Ok (y, 8) /\
  raw_enc y = [1; 0; 0; 0x0f; 0xac; 4; 0; 0]%N /\ rsn_pairwise (without_empty_end y) = (if strict_end then None else Some (Iter [])) /\
  swap16 0x00c0 = 0xc000%N.
Proof. destruct cfg as [[] [] []]; vm_compute; repeat split. Qed.
(** with PMKIDs also (C17_forward), but then the announced length is too small, by *)
Theorem C76_rsn_announced_partial : forall (cfg : Cfg) bs y n, rd_rsn bs = Ok (y, n) ->
  rsn_measure y + (length (pmkid_bytes y) - 4 * (length (pmkid_bytes y) / 16)) = length (raw_enc y).
Proof. exact @rsn_announced. Qed.
Print Assumptions C76_rsn_announced_partial.
(** so that an element which a roaming station sends in the format of the standard is spoiled. *)
Theorem C76_rsn_pmkid_refuted : forall (cfg : Cfg), native_le = true -> exists v y n k, ok_view v /\ gap_free v /\ pmkid_count v = 1 /\
  rd_rsn (enc_rsn 1 v) = Ok (y, n) /\ Writes (wr_rsn y) k /\ rsn_measure y + 4 = length k.
Proof. exact @rsn_pmkid_resent. Qed.
Print Assumptions C76_rsn_pmkid_refuted.
Example C76_rsn_ex (cfg : Cfg) : exists y n, rd_rsn [1; 0; 0; 0x0f; 0xac; 4; 1; 0; 0; 0x0f; 0xac; 4; 1; 0; 0; 0x0f; 0xac; 2; 0; 0]%N = Ok (y, n) /\ pmkid_bytes y = [].
Proof. destruct cfg as [[] [] []]; eexists _, _; split; vm_compute; reflexivity. Qed.

(** HT operation: what is written for every received body, and when it is read as the same value. *)
Theorem C76_ht_operation_exact : forall (cfg : Cfg) bs x n, wf_bytes bs -> rd_ht_op bs = Ok (x, n) ->
  Writes (wr_ht_op x) (kept_ht_op bs) /\
  ((exists m, rd_ht_op (kept_ht_op bs) = Ok (x, m)) <-> firstn 3 (skipn 1 bs) = [0; 0; 0]%N /\ nth 4 bs 0%N = nth 5 bs 0%N).
Proof. exact (fun cfg bs x n W E => conj (ht_op_resent bs x n W E) (ht_op_lost bs x n W E)). Qed.
Print Assumptions C76_ht_operation_exact.
(** The element of a network on channel 36 that uses the channel above as well. *)
Theorem C76_ht_operation_refuted : forall (cfg : Cfg), exists bs x n k y m, wf_bytes bs /\ rd_ht_op bs = Ok (x, n) /\
  Writes (wr_ht_op x) k /\ rd_ht_op k = Ok (y, m) /\ nth 1 bs 0%N = 5%N /\ nth 1 k 0%N = 0%N /\ x <> y.
Proof. exact @ht_op_changed. Qed.
Print Assumptions C76_ht_operation_refuted.

(** ** In a frame: whatever value of such a type the lookup gives for the elements of a received frame, it is written as an element with
    the same identifier, of the announced length, and is what the lookup gives for it. *)
Theorem C76_element : forall (cfg : Cfg) (W R : Type) (t : ElementType W R) back kept block x,
  Resent t back kept -> lookup_id (et_id t) -> wf_id (et_id t) -> wf_bytes block ->
  (get_first_element t block = Ok (Some x) \/ exists l, get_matching_elements t block = Ok l /\ In x l) ->
  exists es body, raw_elements block = Ok es /\ In (element (et_id t) body) es /\
    Writes (wr_wrapped (elem_of t (back x))) (enc_element (element (et_id t) (kept body))) /\
    wrapped_measure (elem_of t (back x)) = length (enc_element (element (et_id t) (kept body))) /\
    get_first_element t (enc_element (element (et_id t) (kept body))) = Ok (Some x).
Proof. exact @resent_found. Qed.
Print Assumptions C76_element.
Example C76_element_ex (cfg : Cfg) :
  get_first_element VHTOperationElement [0; 1; 65; 0xc0; 6; 1; 42; 0; 0xfc; 0xff; 9]%N = Ok (Some (mkVHTOp Enums.Cw_EightyOneSixtyOrEightyPlusEightyMhz 42 0 0xfffc)) /\
  lookup_id (et_id VHTOperationElement) /\ wf_id (et_id VHTOperationElement) /\
  get_first_element LifetimeKde [221; 8; 0; 15; 172; 7; 0; 0; 14; 16]%N = Ok (Some 3600%N) /\ lookup_id (et_id LifetimeKde) /\ wf_id (et_id LifetimeKde).
Proof.
  split; [destruct cfg as [[] [] []]; vm_compute; reflexivity|]. split; [exact I|]. split; [reflexivity|].
  split; [destruct cfg as [[] [] []]; vm_compute; reflexivity|]. split; [discriminate|repeat constructor].
Qed.
