(** What a failing write leaves behind: the statements of C74, and sending key frames (C71). *)
From Verif Require Import Base SpecBase BaseFacts Bits Layouts Enums Common Crc Elements ElementTypes Tim Rsn Mgmt Amsdu CryptoHeader Data
  Control Eapol Accessors SpecData SpecEapol SpecKeyMgmt EapolFacts KeyMgmt KeyMgmtState Stores SpecTorn TornFacts TornFacts2 TornFacts3.

Section Facts.
Context {cfg : Cfg}.
Lemma refused w p bs buf b' : Runs w p -> Writes w bs -> Left p buf b' -> (exists e, w buf = Err e) /\ Torn (map Byte bs) buf b'.
Proof.
  intros R W L. split.
  - destruct (writes_any _ _ W buf) as [[_ E]|E]; [|exact E]. exfalso. rewrite R in E.
    eapply (proj1 (left_fails p buf)); [eexists; exact L|exact E].
  - rewrite <- (image_encoding _ _ _ R W). apply left_torn. exact L.
Qed.
Lemma some_left w p buf : Runs w p -> (exists b', Left p buf b') <-> (forall r, w buf <> Ok r).
Proof. intros R. rewrite left_fails, R. reflexivity. Qed.
Lemma front_left w p bs buf b' : Runs w p -> Writes w bs -> Straight p -> Left p buf b' -> CutOff bs buf b'.
Proof. intros R W S L. apply (left_cut p); [eapply image_encoding; eassumption|assumption..]. Qed.
Lemma done_image w p buf b' n : Runs w p -> w buf = Ok (b', n) -> n = length (image p) /\ Done (image p) buf b'.
Proof. intros R E. rewrite R in E. apply exec_good. exact E. Qed.
(** writing behind something *)
Lemma behind w p bs buf off b' : Runs w p -> Writes w bs -> LeftFrom [p] buf off b' ->
  (exists e, gwrite w buf off = Err e) /\ Torn (repeat Kept off ++ map Byte bs) buf b'.
Proof.
  intros R W L. split.
  - pose proof (from_fails [p] (Forall_cons _ (left_fails p) (Forall_nil _)) buf off) as F. cbn [map wseq_from] in F.
    rewrite (runs_gwrite _ _ _ _ R). destruct (gwrite (exec p) buf off) as [[b o]|e|] eqn:G; cbn [rbind] in F.
    + exfalso. eapply (proj1 F); [eexists; exact L|reflexivity].
    + eexists. reflexivity.
    + exfalso. rewrite <- (runs_gwrite _ _ _ _ R) in G. unfold gwrite in G. destruct (end_bad _ _); [discriminate|].
      destruct (writes_any _ _ W (skipn off buf)) as [[_ E]|[e E]]; rewrite E in G; discriminate.
  - pose proof (proj2 left_torn_both _ _ _ _ L) as T. cbn [map concat] in T. rewrite app_nil_r, (image_encoding _ _ _ R W) in T. exact T.
Qed.

(** ** Sending *)
Definition eapol_prog {P} (h : DataHeader) (oui : bytes) (et : N) (k : KeyFrame P) (p : Prog) : Prog :=
  p_data h (Some (p_snap (mkSnap oui et k) (p_key_frame k p))) false.
Lemma send_short hmac wrap kck kek h oui et (k : KeyFrame Container) kd p buffer temp torn :
  ok_data_header h -> length oui = 3 -> wf_bytes oui -> Writes (c_write (key_data k)) kd -> ok_key_frame (with_data k kd) ->
  Runs (c_write (key_data k)) p -> 24 <= temp -> LeftFrom [eapol_prog h oui et k p] buffer 0 torn ->
  serialize_in_place hmac wrap kck kek (h, Some (mkSnap oui et k)) buffer temp torn = (Err BufferTooShort, torn) /\
  Torn (map Byte (enc_eapol h oui et (with_data k kd))) buffer torn.
Proof.
  intros H LO WO W OK R T L. pose proof (eapol_data_W h oui et k kd H LO WO OK W) as WW.
  pose proof (runs_eapol (h, Some (mkSnap oui et k)) p false R) as RR.
  destruct (behind _ _ _ _ _ _ RR WW L) as [[e E] TT]. split; [|exact TT].
  unfold serialize_in_place. destruct (Nat.ltb_spec temp 24); [lia|]. cbn [eapol_mic_range eapol_key_data_length_range eapol_key_data_range snd fst].
  unfold pwrite. rewrite E. reflexivity.
Qed.
Lemma send_short_some h oui et (k : KeyFrame Container) kd p buffer :
  ok_data_header h -> length oui = 3 -> wf_bytes oui -> Writes (c_write (key_data k)) kd -> ok_key_frame (with_data k kd) ->
  Runs (c_write (key_data k)) p -> length buffer < length (enc_eapol h oui et (with_data k kd)) ->
  exists torn, LeftFrom [eapol_prog h oui et k p] buffer 0 torn.
Proof.
  intros H LO WO W OK R LB. pose proof (eapol_data_W h oui et k kd H LO WO OK W) as WW.
  pose proof (runs_eapol (h, Some (mkSnap oui et k)) p false R) as RR.
  apply (from_fails [eapol_prog h oui et k p] (Forall_cons _ (left_fails _) (Forall_nil _)) buffer 0). cbn [map wseq_from].
  change (exec (eapol_prog h oui et k p)) with (exec (p_data (fst (h, Some (mkSnap oui et k))) (Some (p_snap (mkSnap oui et k) (p_key_frame k p))) false)).
  rewrite <- (runs_gwrite _ _ _ _ RR). unfold gwrite. destruct (end_bad _ _); [discriminate|].
  destruct (writes_any _ _ WW (skipn 0 buffer)) as [[Q _]|[e ->]]; [cbn [skipn] in Q; lia|discriminate].
Qed.

(** ** Collected *)
Lemma elements_run :
  (forall x, Runs (et_write SSIDElement x) (p_slice x)) /\ (forall x, Runs (et_write MeshIDElement x) (p_slice x)) /\
  (forall x, Runs (et_write SupportedRatesElement x) (p_supported_rates x)) /\
  (forall x, Runs (et_write ExtendedSupportedRatesElement x) (p_extended_supported_rates x)) /\
  (forall x, Runs (et_write DSSSParameterSetElement x) (p_dsss x)) /\ (forall x, Runs (et_write IBSSParameterSetElement x) (p_ibss x)) /\
  (forall x, Runs (et_write BSSLoadElement x) (p_bss_load x)) /\ (forall x, Runs (et_write HTCapabilitiesElement x) (p_ht_cap x)) /\
  (forall x, Runs (et_write HTOperationElement x) (p_ht_op x)) /\ (forall x, Runs (et_write VHTCapabilitiesElement x) (p_vht_cap x)) /\
  (forall x, Runs (et_write VHTOperationElement x) (p_vht_op x)) /\ (forall x, Runs (et_write MeshConfigurationElement x) (p_mesh_conf x)) /\
  (forall x, Runs (et_write MeshPeeringElement x) (p_peering x)) /\ (forall x, Runs (et_write OWETransitionModeElement x) (p_owe x)) /\
  (forall x, Runs (et_write MacAddressKde x) (p_slice x)) /\ (forall x, Runs (et_write PmkidKde x) (p_slice x)) /\
  (forall x, Runs (et_write NonceKde x) (p_slice x)) /\ (forall x, Runs (et_write LifetimeKde x) (p_lifetime x)) /\
  (forall x, Runs (et_write GtkKde x) (p_gtk x)) /\ (forall x, Runs (et_write VendorSpecificElement x) (p_vendor x)) /\
  (forall x, Runs (et_write TIMElement x) (p_tim x)) /\ (forall x, Runs (et_write RsnElement x) (p_rsn x)).
Proof.
  split; [apply runs_ssid|].
  split; [apply runs_mesh_id|].
  split; [apply runs_supported_rates|].
  split; [apply runs_extended_supported_rates|].
  split; [apply runs_dsss|].
  split; [apply runs_ibss|].
  split; [apply runs_bss_load|].
  split; [apply runs_ht_cap|].
  split; [apply runs_ht_op|].
  split; [apply runs_vht_cap|].
  split; [apply runs_vht_op|].
  split; [apply runs_mesh_conf|].
  split; [apply runs_peering|].
  split; [apply runs_owe|].
  split; [apply runs_kde|].
  split; [apply runs_kde|].
  split; [apply runs_kde|].
  split; [apply runs_lifetime|].
  split; [apply runs_gtk|].
  split; [apply runs_vendor|].
  split; [apply runs_tim|].
  apply runs_rsn.
Qed.
Lemma bodies_run :
  (forall b p, Runs (c_write (bb_elements b)) p -> Runs (bt_write Beacon b) (p_beacon b p)) /\
  (forall b p, Runs (c_write (bb_elements b)) p -> Runs (bt_write ProbeResponse b) (p_beacon b p)) /\
  (forall b p, Runs (c_write (pq_elements b)) p -> Runs (bt_write ProbeRequest b) p) /\
  (forall b p, Runs (c_write (au_elements b)) p -> Runs (bt_write Authentication b) (p_auth b p)) /\
  (forall b p, Runs (c_write (aq_elements b)) p -> Runs (bt_write AssociationRequest b) (p_assoc_req b p)) /\
  (forall b p, Runs (c_write (ar_elements b)) p -> Runs (bt_write AssociationResponse b) (p_assoc_resp b p)) /\
  (forall b p, Runs (c_write (rb_elements b)) p -> Runs (bt_write Deauthentication b) (p_reason b p)) /\
  (forall b p, Runs (c_write (rb_elements b)) p -> Runs (bt_write Disassociation b) (p_reason b p)) /\
  (forall b, Runs (bt_write RawAction b) (p_raw_action b)) /\
  (forall b p, Runs (c_write (va_payload b)) p -> Runs (bt_write RawVendorSpecificAction b) (p_vendor_action b p)) /\
  (forall b p, Runs (c_write (mo_elements b)) p -> Runs (bt_write MeshPeeringOpen b) (p_mesh_open b p)) /\
  (forall b p, Runs (c_write (mc_elements b)) p -> Runs (bt_write MeshPeeringConfirm b) (p_mesh_confirm b p)) /\
  (forall b p, Runs (c_write (ml_elements b)) p -> Runs (bt_write MeshPeeringClose b) (p_mesh_close p)).
Proof.
  split; [apply runs_beacon|]. split; [apply runs_probe_resp|]. split; [apply runs_probe_req|]. split; [apply runs_auth|]. split; [apply runs_assoc_req|].
  split; [apply runs_assoc_resp|]. split; [apply runs_deauth|]. split; [apply runs_disassoc|]. split; [apply runs_raw_action|].
  split; [apply runs_vendor_action|]. split; [apply runs_mesh_open|]. split; [apply runs_mesh_confirm|apply runs_mesh_close].
Qed.
Lemma containers_run :
  Runs (c_write c_empty) p_empty /\ (forall bs, Runs (c_write (c_read_elements bs)) (p_slice bs)) /\
  (forall bs, Runs (c_write (c_bytes bs)) (Store bs)) /\
  (forall p, Runs (c_write (c_payload p)) (p_slice (match p with Pl_Single bs | Pl_AMSDU (Some bs) => bs | Pl_AMSDU None => [] end))) /\
  (forall f c, (forall e, In e (chain_elems c) -> Runs (e_write e) (f e)) -> Runs (c_write (c_chain c)) (p_chain f c)) /\
  (forall f l, (forall s, In s l -> Runs (c_write (sf_payload s)) (f (sf_payload s))) -> Runs (c_write (c_amsdu l)) (p_amsdu f l)) /\
  (forall w p, Runs (c_write (cw_payload w)) p -> Runs (c_write (c_crypto w)) (p_crypto w p)) /\
  (forall (s : Snap Container) p, Runs (c_write (snap_payload s)) p -> Runs (c_write (c_snap s)) (p_snap s p)) /\
  (forall k p, Runs (c_write (key_data k)) p -> Runs (c_write (c_key_frame k)) (p_key_frame k p)).
Proof.
  split; [apply runs_empty|]. split; [apply runs_read_elements|]. split; [apply runs_bytes|]. split; [apply runs_payload|]. split; [apply runs_chain|].
  split; [apply runs_amsdu|]. split; [apply runs_crypto|]. split; [apply runs_snap|apply runs_key_frame].
Qed.
Lemma chain_straight f c : (forall e, In e (chain_elems c) -> Straight (f e)) -> Straight (p_chain f c).
Proof.
  assert (W : forall id m p, Straight p -> Straight (p_wrapped id m p)).
  { intros id m p S. unfold p_wrapped, p_tlv. destruct id; cbn [Straight map fold_right]; destruct (255 <? _); cbn; tauto. }
  assert (Rw : forall e, Straight (p_raw e)) by (intros e; unfold p_raw, p_tlv; destruct (255 <? _); cbn; tauto).
  induction c as [[e|e]|[e|e] c IH]; cbn [chain_elems p_chain p_item Straight map fold_right]; intros H.
  - split; [apply W, H; left; reflexivity|exact I].
  - split; [apply Rw|exact I].
  - split; [apply W, H; left; reflexivity|]. split; [|exact I]. apply IH. intros e' He. apply H. right. exact He.
  - split; [apply Rw|]. split; [|exact I]. apply IH. exact H.
Qed.
Lemma mgmt_straight s h p fcs : Straight p -> Straight (p_mgmt s h p fcs).
Proof. intros S. unfold p_mgmt, p_mgmt_header, p_opt. destruct fcs, (mh_ht h); cbn; tauto. Qed.
Lemma data_straight h p fcs : match p with Some p => Straight p | None => True end -> Straight (p_data h p fcs).
Proof.
  intros S. unfold p_data, p_data_header, p_opt. destruct (data_fcf h); [|exact I..]. destruct fcs, (dh_a4 h), (dh_qos h), (dh_ht h), p; cbn; tauto.
Qed.
End Facts.
