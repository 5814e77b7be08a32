(** Every writer writes bytes that depend on the value alone, with the exceptions shown at the end. *)
From Verif Require Import Base SpecBase BaseFacts StepsFacts Bits BitsFacts Layouts Enums EnumsFacts Common SpecCommon CommonFacts Crc CrcFacts
  Elements SpecElements ElementsFacts ElementTypes SpecElementTypes ElementTypesFacts ElementTypesFacts2 ElementTypesFacts3 Suites Rsn RsnFacts RsnFacts2 Tim TimFacts2
  Mgmt SpecMgmt MgmtFacts MgmtFacts2 Control Amsdu Data SpecData DataFacts CryptoHeader Eapol SpecEapol EapolFacts DataFacts5 SpecUniform.

Section F.
Context {cfg : Cfg}.
(** ** What it gives *)
Lemma uniform_no_panic w buf : Uniform w -> w buf <> Panic.
Proof. intros [[bs W]|F]; [eapply Writes_no_panic; eassumption|]. destruct (F buf) as [e ->]. discriminate. Qed.
Lemma uniform_contained w buf buf' n : Uniform w -> w buf = Ok (buf', n) ->
  n <= length buf /\ length buf' = length buf /\ skipn n buf' = skipn n buf.
Proof.
  intros [[bs W]|F] E; [|destruct (F buf); congruence]. destruct (writes_any _ _ W buf) as [[L X]|[e X]]; [|congruence].
  rewrite X in E. injection E as <- <-. split; [exact L|]. split; [rewrite app_length, skipn_length; lia|now apply skipn_app_exact].
Qed.
Lemma uniform_same w buf1 buf2 b1 b2 n1 n2 : Uniform w -> w buf1 = Ok (b1, n1) -> w buf2 = Ok (b2, n2) -> n1 = n2 /\ firstn n1 b1 = firstn n2 b2.
Proof.
  intros [[bs W]|F] E1 E2; [|destruct (F buf1); congruence].
  destruct (writes_any _ _ W buf1) as [[L1 X1]|[e X1]]; [|congruence]. destruct (writes_any _ _ W buf2) as [[L2 X2]|[e X2]]; [|congruence].
  rewrite X1 in E1. rewrite X2 in E2. injection E1 as <- <-. injection E2 as <- <-. now rewrite !firstn_app_exact by reflexivity.
Qed.
Lemma uniform_larger w buf1 buf2 b1 n1 : Uniform w -> w buf1 = Ok (b1, n1) -> n1 + slack <= length buf2 -> exists b2, w buf2 = Ok (b2, n1).
Proof.
  intros [[bs W]|F] E1 L; [|destruct (F buf1); congruence].
  destruct (writes_any _ _ W buf1) as [[L1 X1]|[e X1]]; [|congruence]. rewrite X1 in E1. injection E1 as <- <-.
  rewrite (writes_ok _ _ W) by exact L. eauto.
Qed.
Lemma Uniform_ext w w' : (forall buf, w' buf = w buf) -> Uniform w -> Uniform w'.
Proof. intros E [[bs W]|F]; [left; exists bs; eapply Writes_ext; eauto|right; intros buf; rewrite E; apply F]. Qed.
Lemma Uniform_W w bs : Writes w bs -> Uniform w.
Proof. left. eauto. Qed.

(** ** Steps *)
Definition UStep (f : step) : Prop :=
  (exists bs, Steps f bs) \/ (forall p buf, length p <= length buf -> exists e, f (p ++ skipn (length p) buf) (length p) = Err e).
Lemma UStep_ext f g : (forall buf off, g buf off = f buf off) -> UStep f -> UStep g.
Proof. intros E [[bs S]|F]; [left; exists bs; eapply Steps_ext; eauto|right; intros p buf L; rewrite E; now apply F]. Qed.
Lemma UStep_gwrite w : Uniform w -> UStep (gwrite w).
Proof.
  intros [[bs W]|F]; [left; exists bs; now apply Steps_gwrite|right]. intros p buf L. unfold gwrite. destruct (end_bad _ _); [eauto|].
  match goal with |- context [w ?x] => destruct (F x) as [e ->] end. eauto.
Qed.
Lemma UStep_ret : UStep (fun buf off => Ok (buf, off)).
Proof. left. exists []. apply Steps_ret. Qed.
Lemma UStep_seq f g : UStep f -> UStep g -> UStep (fun buf off => '(buf, off) <- f buf off ;; g buf off).
Proof.
  intros [[a F]|F] G.
  - destruct G as [[b G]|G]; [left; exists (a ++ b); now apply Steps_seq|right]. intros p buf L.
    destruct (steps_any _ _ F p buf L) as [[L1 E1]|[e E1]]; rewrite E1; cbn [rbind]; [|eauto]. now apply G.
  - right. intros p buf L. destruct (F p buf L) as [e ->]. cbn. eauto.
Qed.
Lemma UStep_opt {A} (o : option A) (f : A -> step) : (forall a, UStep (f a)) ->
  UStep (fun buf off => match o with None => Ok (buf, off) | Some a => f a buf off end).
Proof. intros F. destruct o; [apply F|apply UStep_ret]. Qed.
Lemma UStep_wseq ws : Forall Uniform ws -> UStep (wseq_from ws).
Proof.
  induction 1 as [|w ws W F IH]; [apply UStep_ret|].
  eapply UStep_ext; [|apply (UStep_seq (gwrite w) (wseq_from ws)); [now apply UStep_gwrite|exact IH]]. reflexivity.
Qed.
Lemma UStep_Uniform f : UStep f -> Uniform (fun buf => f buf 0).
Proof.
  intros [[bs S]|F]; [left; exists bs; now apply Steps_W|right]. intros buf. exact (F [] buf (Nat.le_0_l _)).
Qed.
Lemma Uniform_wseq ws : Forall Uniform ws -> Uniform (wseq ws).
Proof. intros F. apply (UStep_Uniform (wseq_from ws)), UStep_wseq, F. Qed.
Lemma UStep_backpatch k f patch : UStep f -> k <> 0 -> (forall n, length (patch n) = k) ->
  (forall buf off, length buf < off -> exists e, f buf off = Err e) -> UStep (backpatch k f patch).
Proof.
  intros [[bs S]|F] K P Far; [left; eexists; apply Steps_backpatch; eauto|right]. intros p buf L. unfold backpatch.
  destruct (le_lt_dec (length p + k) (length buf)) as [X|X].
  - rewrite (skipn_firstn_split buf (length p) k X), app_assoc.
    assert (LL : length (p ++ firstn k (skipn (length p) buf)) = length p + k) by (rewrite app_length, firstn_length, skipn_length; lia).
    destruct (F (p ++ firstn k (skipn (length p) buf)) buf) as [e E]; [lia|]. rewrite LL in E. rewrite E. cbn. eauto.
  - destruct (Far (p ++ skipn (length p) buf) (length p + k)) as [e ->]; [rewrite app_length, skipn_length; lia|]. cbn. eauto.
Qed.
Lemma UStep_no_panic f buf off : UStep f -> off <= length buf -> f buf off <> Panic.
Proof.
  intros S L. assert (LL : length (firstn off buf) = off) by (rewrite firstn_length; lia).
  assert (E : f buf off = f (firstn off buf ++ skipn (length (firstn off buf)) buf) (length (firstn off buf))) by (now rewrite LL, firstn_skipn).
  rewrite E. destruct S as [[bs S]|F].
  - destruct (steps_any _ _ S (firstn off buf) buf ltac:(lia)) as [[_ X]|[e X]]; rewrite X; discriminate.
  - destruct (F (firstn off buf) buf ltac:(lia)) as [e ->]. discriminate.
Qed.
Lemma Uniform_pwrite w : Uniform w -> Uniform (fun buf => pwrite w buf 0).
Proof.
  intros [[bs W]|F]; [left; exists bs; now apply pwrite0_W|right]. intros buf. unfold pwrite, gwrite. destruct (end_bad _ _); [eauto|].
  destruct (F (skipn 0 buf)) as [e ->]. eauto.
Qed.
Lemma Uniform_bytes bs : Uniform (wr_bytes bs).
Proof. eapply Uniform_W, wr_bytes_W. Qed.
Lemma Uniform_ne n v : Uniform (wr_ne n v).
Proof. unfold wr_ne. destruct native_le; apply Uniform_bytes. Qed.
Lemma Uniform_error e : Uniform (fun _ => Err e).
Proof. right. eauto. Qed.
Lemma Forall_map_all {A B} (P : B -> Prop) (f : A -> B) l : (forall a, P (f a)) -> Forall P (map f l).
Proof. intros H. induction l; constructor; auto. Qed.

(** one constructor of a writer after the other *)
Local Ltac uni := repeat first
  [ apply Uniform_bytes | apply Uniform_ne | apply Uniform_error
  | (apply Uniform_wseq; repeat (apply Forall_app; split); repeat apply Forall_cons; try apply Forall_nil)
  | apply Uniform_pwrite | assumption ].

(** ** Elements *)
Lemma tlv_uniform t m w : Uniform w -> Uniform (wr_tlv t m w).
Proof.
  intros W. unfold wr_tlv. destruct (255 <? m); [apply Uniform_error|].
  apply (Uniform_ext (wseq [wr_u8 t; wr_u8 (N.of_nat m); w])); [reflexivity|]. uni.
Qed.
Lemma wrapped_uniform e : Uniform (e_write e) -> Uniform (wr_wrapped e).
Proof.
  intros W. unfold wr_wrapped. destruct (e_id e); apply Uniform_pwrite, tlv_uniform; unfold wr_typed_ext, wr_vendor, wr_prefixed; uni.
Qed.
Lemma raw_tlv_uniform e : Uniform (wr_raw_tlv e).
Proof. apply tlv_uniform, Uniform_bytes. Qed.
Lemma chain_uniform c : Forall (fun i => match i with Typed e => Uniform (e_write e) | RawItem _ => True end) (chain_items c) -> Uniform (wr_chain c).
Proof.
  induction c as [[e|e]|[e|e] c IH]; intros F; inversion F as [|? ? H F']; subst; cbn [wr_chain].
  - now apply Uniform_pwrite, wrapped_uniform.
  - apply Uniform_pwrite, raw_tlv_uniform.
  - apply Uniform_wseq. apply Forall_cons; [now apply wrapped_uniform|apply Forall_cons; [now apply IH|apply Forall_nil]].
  - apply Uniform_wseq. apply Forall_cons; [apply raw_tlv_uniform|apply Forall_cons; [now apply IH|apply Forall_nil]].
Qed.
Lemma rlist_uniform {A} (w : A -> writer) l : (forall a, Uniform (w a)) -> Uniform (wr_rlist w l).
Proof. intros W. destruct l; cbn [wr_rlist]; [apply Uniform_wseq, Forall_map_all, W|apply Uniform_pwrite, Uniform_bytes]. Qed.
Lemma list_ustep {A} (w : A -> writer) l : (forall a, Uniform (w a)) -> UStep (wr_list w l).
Proof.
  intros W. eapply UStep_ext; [|apply (UStep_backpatch 2 (gwrite (wr_rlist w l)) (fun n => le_bytes 2 (N.of_nat n mod 65536 / 4)))].
  - intros buf off. unfold wr_list, backpatch.
    destruct (gwrite (wr_rlist w l) buf (off + 2)) as [[b o]| |] eqn:G; cbn [rbind]; try reflexivity.
    assert (off + 2 <= o).
    { unfold gwrite in G. destruct (end_bad _ _); [discriminate|]. destruct (wr_rlist w l _) as [[? ?]| |]; try discriminate.
      injection G as _ <-. lia. }
    replace (o - (o - (off + 2)) - 2) with off by lia. reflexivity.
  - apply UStep_gwrite. now apply rlist_uniform.
  - discriminate.
  - intros. apply le_bytes_length.
  - intros. now apply gwrite_far.
Qed.
Lemma cipher_uniform c : Uniform (wr_cipher c).
Proof. eapply Uniform_W, wr_cipher_W. Qed.
Lemma akm_uniform c : Uniform (wr_akm c).
Proof. eapply Uniform_W, wr_akm_W. Qed.
Lemma pmkid_uniform c : Uniform (wr_pmkid c).
Proof. eapply Uniform_W, wr_pmkid_W. Qed.
Lemma rsn_uniform x : Uniform (wr_rsn x).
Proof.
  apply (UStep_Uniform (wr_rsn_step x)). unfold wr_rsn_step.
  apply UStep_seq; [apply UStep_gwrite, Uniform_bytes|]. apply UStep_opt. intros g.
  apply UStep_seq; [apply UStep_gwrite, cipher_uniform|]. apply UStep_opt. intros l.
  apply UStep_seq; [apply list_ustep, cipher_uniform|]. apply UStep_opt. intros l'.
  apply UStep_seq; [apply list_ustep, akm_uniform|]. apply UStep_opt. intros c.
  apply UStep_seq; [apply UStep_gwrite, Uniform_bytes|]. apply UStep_opt. intros k.
  apply UStep_seq; [apply list_ustep, pmkid_uniform|]. apply UStep_opt. intros m.
  apply UStep_gwrite, cipher_uniform.
Qed.
Lemma mcs_uniform x : Uniform (wr_mcs_set x).
Proof. unfold wr_mcs_set. uni. Qed.
Lemma elements_uniform :
  (forall x, Uniform (et_write SSIDElement x)) /\ (forall x, Uniform (et_write MeshIDElement x)) /\
  (forall x, Uniform (et_write SupportedRatesElement x)) /\ (forall x, Uniform (et_write ExtendedSupportedRatesElement x)) /\
  (forall x, Uniform (et_write DSSSParameterSetElement x)) /\ (forall x, Uniform (et_write IBSSParameterSetElement x)) /\
  (forall x, Uniform (et_write BSSLoadElement x)) /\ (forall x, Uniform (et_write HTCapabilitiesElement x)) /\
  (forall x, Uniform (et_write HTOperationElement x)) /\ (forall x, Uniform (et_write VHTCapabilitiesElement x)) /\
  (forall x, Uniform (et_write VHTOperationElement x)) /\ (forall x, Uniform (et_write MeshConfigurationElement x)) /\
  (forall x, Uniform (et_write OWETransitionModeElement x)) /\ (forall x, Uniform (et_write RsnElement x)) /\
  (forall x, Uniform (et_write MacAddressKde x)) /\ (forall x, Uniform (et_write PmkidKde x)) /\ (forall x, Uniform (et_write NonceKde x)) /\
  (forall x, Uniform (et_write LifetimeKde x)) /\ (forall x, Uniform (et_write GtkKde x)) /\ (forall x, Uniform (et_write VendorSpecificElement x)).
Proof.
  repeat split; intros x; cbn [et_write SSIDElement MeshIDElement SupportedRatesElement ExtendedSupportedRatesElement DSSSParameterSetElement IBSSParameterSetElement
    BSSLoadElement HTCapabilitiesElement HTOperationElement VHTCapabilitiesElement VHTOperationElement MeshConfigurationElement OWETransitionModeElement RsnElement
    MacAddressKde PmkidKde NonceKde kde_bytes LifetimeKde GtkKde VendorSpecificElement].
  - unfold wr_ssid. uni.
  - unfold wr_ssid. uni.
  - apply Uniform_wseq, Forall_map_all. intros. apply Uniform_bytes.
  - apply Uniform_wseq, Forall_map_all. intros. apply Uniform_bytes.
  - unfold wr_dsss. uni.
  - unfold wr_ibss. uni.
  - unfold wr_bss_load. uni.
  - unfold wr_ht_cap. uni. all: apply mcs_uniform.
  - unfold wr_ht_op. uni. all: apply mcs_uniform.
  - unfold wr_vht_cap. uni.
  - unfold wr_vht_op. uni.
  - unfold wr_mesh_conf. uni.
  - unfold wr_owe. destruct (owe_band x); cbn [opt_writer]; uni.
  - apply rsn_uniform.
  - uni.
  - uni.
  - uni.
  - uni.
  - unfold wr_gtk. uni.
  - unfold wr_vendor. uni.
Qed.

Lemma peering_uniform x : mp_rest_len x <= length (mp_rest x) -> Uniform (et_write MeshPeeringElement x).
Proof.
  intros L. cbn [et_write MeshPeeringElement].
  apply (Uniform_ext (wseq [wr_ne 2 (mesh_peering_proto_into_bits (mp_protocol x)); wr_ne 2 (mp_local x); wr_bytes (firstn (mp_rest_len x) (mp_rest x))])); [|uni].
  intros buf. unfold wr_peering, wseq. cbn [wseq_from]. destruct (gwrite _ buf 0) as [[b o]| |]; cbn [rbind]; try reflexivity.
  destruct (gwrite _ b o) as [[b' o']| |]; cbn [rbind]; try reflexivity. rewrite slice_to_ok by exact L. cbn [rbind].
  destruct (gwrite _ b' o') as [[? ?]| |]; reflexivity.
Qed.
Lemma bm_uniform b bs : bm_bytes b = Ok bs -> Uniform (bm_write b).
Proof. intros E. eapply Uniform_W, bm_write_W, E. Qed.
Lemma tim_uniform t : bitmap_readable t -> Uniform (et_write TIMElement t).
Proof.
  intros H. unfold bitmap_readable in H. cbn [et_write TIMElement]. unfold wr_tim, check_dtim_parameters. destruct (_ <? _)%N; cbn [rbind]; [apply Uniform_error|].
  apply Uniform_wseq, Forall_app. split; [repeat (apply Forall_cons; [apply Uniform_bytes|]); apply Forall_nil|].
  destruct (te_bitmap t) as [tb|]; [|apply Forall_nil]. specialize (H tb). destruct (tb_is_empty tb); [apply Forall_nil|].
  apply Forall_cons; [|apply Forall_nil]. unfold tb_write. destruct (tb_bitmap tb) as [b|].
  - specialize (H b eq_refl eq_refl). assert (X : exists bs, bm_bytes b = Ok bs).
    { unfold bm_bytes, slice_to, slice in *. destruct b; [eauto| |]; destruct (_ <=? _) in *; cbn [andb] in *; try destruct (_ <=? _) in *; eauto; congruence. }
    destruct X as [bs X]. apply Uniform_wseq, Forall_cons; [apply Uniform_bytes|apply Forall_cons; [eapply bm_uniform, X|apply Forall_nil]].
  - destruct (tb_traffic tb); uni.
Qed.
Lemma tim_panics t tb b buf : te_bitmap t = Some tb -> tb_bitmap tb = Some b -> bm_bytes b = Panic -> (te_count t <= te_period t)%N -> 4 <= length buf ->
  wr_tim t buf = Panic.
Proof.
  intros E B P C L. unfold wr_tim, check_dtim_parameters. destruct (N.ltb_spec (te_period t) (te_count t)); [lia|]. cbn [rbind].
  rewrite E. unfold tb_is_empty. rewrite B, andb_false_r. unfold wseq. cbn [app wseq_from].
  pose proof (gwrite_state_ok (wr_u8 (te_count t)) (le_bytes 1 (te_count t)) [] buf) as G1. cbn [app skipn length] in G1. rewrite G1; [|apply wr_bytes_W|pose proof slack_le; cbn; lia]. cbn [rbind].
  pose proof (gwrite_state_ok (wr_u8 (te_period t)) (le_bytes 1 (te_period t)) (le_bytes 1 (te_count t)) buf) as G2.
  change (length (le_bytes 1 (te_count t))) with 1 in *. rewrite G2; [|apply wr_bytes_W|pose proof slack_le; cbn; lia]. cbn [rbind].
  rewrite app_length. change (length (le_bytes 1 (te_count t))) with 1. change (length (le_bytes 1 (te_period t))) with 1. change (1 + 1) with 2.
  set (buf2 := (le_bytes 1 (te_count t) ++ le_bytes 1 (te_period t)) ++ skipn 2 buf).
  assert (L2 : length buf2 = length buf) by (unfold buf2; rewrite !app_length, skipn_length; cbn; lia).
  unfold gwrite at 1. rewrite end_bad_lt by lia. unfold tb_write. rewrite B. unfold wseq. cbn [wseq_from].
  pose proof (gwrite_state_ok (wr_u8 (tb_control tb)) (le_bytes 1 (tb_control tb)) [] (skipn 2 buf2)) as G3. change ([] ++ skipn (length (@nil N)) (skipn 2 buf2)) with (skipn 2 buf2) in G3. change (length (@nil N)) with 0 in G3.
  rewrite G3; [|apply wr_bytes_W|rewrite skipn_length, le_bytes_length, L2; pose proof slack_le; lia]. cbn [rbind].
  unfold gwrite at 1. rewrite end_bad_lt by (rewrite ?app_length, ?skipn_length, ?app_length, ?le_bytes_length, ?L2; cbn [length]; lia).
  unfold bm_write. destruct b; [discriminate P| |]; rewrite P; reflexivity.
Qed.

(** ** Frames *)
Lemma fcs_uniform w (fcs : bool) : Uniform w -> Uniform (fun buf => '(buf, off) <- w buf ;; if fcs then attach_fcs buf off else Ok (buf, off)).
Proof.
  intros [[bs W]|F]; [left; exists (enc_frame fcs bs); exact (with_fcs_W w bs fcs W)|right]. intros buf. destruct (F buf) as [e ->]. cbn. eauto.
Qed.
Lemma mgmt_uniform {W R} (t : BodyType W R) h b fcs : Uniform (bt_write t b) -> Uniform (wr_mgmt t h b fcs).
Proof.
  intros U. unfold wr_mgmt. apply (fcs_uniform (wseq _)). apply Uniform_wseq.
  repeat (apply Forall_cons; [|]); try apply Forall_nil; [apply Uniform_bytes| |exact U]. unfold wr_mgmt_header. destruct (mh_ht h); uni.
Qed.
Lemma bodies_uniform :
  (forall b, Uniform (c_write (bb_elements b)) -> Uniform (bt_write Beacon b)) /\
  (forall b, Uniform (c_write (bb_elements b)) -> Uniform (bt_write ProbeResponse b)) /\
  (forall b, Uniform (c_write (pq_elements b)) -> Uniform (bt_write ProbeRequest b)) /\
  (forall b, Uniform (c_write (au_elements b)) -> Uniform (bt_write Authentication b)) /\
  (forall b, Uniform (c_write (aq_elements b)) -> Uniform (bt_write AssociationRequest b)) /\
  (forall b, Uniform (c_write (ar_elements b)) -> Uniform (bt_write AssociationResponse b)) /\
  (forall b, Uniform (c_write (rb_elements b)) -> Uniform (bt_write Deauthentication b)) /\
  (forall b, Uniform (c_write (rb_elements b)) -> Uniform (bt_write Disassociation b)) /\
  (forall b, Uniform (bt_write RawAction b)) /\
  (forall b, Uniform (c_write (va_payload b)) -> Uniform (bt_write RawVendorSpecificAction b)) /\
  (forall b, Uniform (c_write (mo_elements b)) -> Uniform (bt_write MeshPeeringOpen b)) /\
  (forall b, Uniform (c_write (mc_elements b)) -> Uniform (bt_write MeshPeeringConfirm b)) /\
  (forall b, Uniform (c_write (ml_elements b)) -> Uniform (bt_write MeshPeeringClose b)).
Proof.
  repeat split; intros b; cbn [bt_write Beacon ProbeResponse beacon_like ProbeRequest Authentication AssociationRequest AssociationResponse Deauthentication
    Disassociation reason_body RawAction RawVendorSpecificAction MeshPeeringOpen MeshPeeringConfirm MeshPeeringClose wr_self_protected_header app]; intros; try solve [uni].
  apply (Uniform_ext (wseq [wr_u8 (category_into_bits Cat_VendorSpecific); wr_bytes (va_oui b); c_write (va_payload b)])); [|uni].
  intros buf. unfold append_vendor_action_header, wseq. cbn [wseq_from]. destruct (gwrite _ buf 0) as [[x o]| |]; cbn [rbind]; try reflexivity.
  destruct (gwrite _ x o) as [[x' o']| |]; cbn [rbind]; try reflexivity. destruct (gwrite _ x' o') as [[? ?]| |]; reflexivity.
Qed.
Lemma mgmt_frames_uniform :
  (forall h b fcs, Uniform (c_write (bb_elements b)) -> Uniform (wr_mgmt Beacon h b fcs)) /\
  (forall h b fcs, Uniform (c_write (bb_elements b)) -> Uniform (wr_mgmt ProbeResponse h b fcs)) /\
  (forall h b fcs, Uniform (c_write (pq_elements b)) -> Uniform (wr_mgmt ProbeRequest h b fcs)) /\
  (forall h b fcs, Uniform (c_write (au_elements b)) -> Uniform (wr_mgmt Authentication h b fcs)) /\
  (forall h b fcs, Uniform (c_write (aq_elements b)) -> Uniform (wr_mgmt AssociationRequest h b fcs)) /\
  (forall h b fcs, Uniform (c_write (ar_elements b)) -> Uniform (wr_mgmt AssociationResponse h b fcs)) /\
  (forall h b fcs, Uniform (c_write (rb_elements b)) -> Uniform (wr_mgmt Deauthentication h b fcs)) /\
  (forall h b fcs, Uniform (c_write (rb_elements b)) -> Uniform (wr_mgmt Disassociation h b fcs)) /\
  (forall h b fcs, Uniform (wr_mgmt RawAction h b fcs)) /\
  (forall h b fcs, Uniform (c_write (va_payload b)) -> Uniform (wr_mgmt RawVendorSpecificAction h b fcs)) /\
  (forall h b fcs, Uniform (c_write (mo_elements b)) -> Uniform (wr_mgmt MeshPeeringOpen h b fcs)) /\
  (forall h b fcs, Uniform (c_write (mc_elements b)) -> Uniform (wr_mgmt MeshPeeringConfirm h b fcs)) /\
  (forall h b fcs, Uniform (c_write (ml_elements b)) -> Uniform (wr_mgmt MeshPeeringClose h b fcs)).
Proof. repeat split; intros; apply mgmt_uniform; now apply bodies_uniform. Qed.
Lemma containers_uniform :
  (forall bs, Uniform (c_write (c_read_elements bs))) /\ (forall bs, Uniform (c_write (c_bytes bs))) /\ Uniform (c_write c_empty) /\
  (forall c, Forall (fun i => match i with Typed e => Uniform (e_write e) | RawItem _ => True end) (chain_items c) -> Uniform (c_write (c_chain c))) /\
  (forall p, Uniform (c_write (c_payload p))) /\ (forall st, Uniform (iter_write st)).
Proof.
  repeat split; cbn [c_write c_read_elements c_bytes c_empty c_chain c_payload].
  - intros. unfold wr_elements. uni.
  - intros. uni.
  - left. exists []. split; intros buf; [left; split; [apply Nat.le_0_l|reflexivity]|reflexivity].
  - apply chain_uniform.
  - intros []; uni.
  - intros. unfold iter_write. uni.
Qed.
Lemma ctrl_uniform c : Uniform (wr_ctrl c).
Proof. destruct c; cbn [wr_ctrl]; uni. Qed.
Lemma type_fits n : (N.ones 6 <? N.lor 2 (shl2_u8 n))%N = negb (n mod 64 <? 16)%N.
Proof.
  unfold shl2_u8. rewrite N.shiftl_mul_pow2. change 255%N with (N.ones 8). rewrite N.land_ones. change (2 ^ 8)%N with (64 * 2 ^ 2)%N.
  rewrite N.mul_mod_distr_r by discriminate. assert (B : (n mod 64 < 64)%N) by (apply N.mod_lt; discriminate). revert B. generalize (n mod 64)%N. intros m B.
  assert (S : forallb (fun m => Bool.eqb (N.ones 6 <? N.lor 2 (m * 2 ^ 2))%N (negb (m <? 16)%N)) (Nseq 64) = true) by reflexivity.
  now apply eqb_prop, (sweepN 64 _ S m B).
Qed.
Lemma data_fcf_total {E} h : overflow_checks = false \/ subtype_fits h -> exists f, @data_fcf cfg E h = Ok f.
Proof.
  intros H. unfold data_fcf, lwith. rewrite fcf_pos_type.
  assert (X : overflow_checks && (N.ones 6 <? frame_type_into_bits (FT_Data (dh_subtype h)))%N = false).
  { destruct H as [->|H]; [reflexivity|]. cbn [frame_type_into_bits]. rewrite type_fits.
    assert (C : (data_subtype_into_bits (dh_subtype h) mod 64 < 16)%N) by (destruct (dh_subtype h) eqn:D; try reflexivity; now apply H).
    apply N.ltb_lt in C. rewrite C. apply andb_false_r. }
  rewrite X. cbn [rbind]. eauto.
Qed.
Lemma data_panics h p fcs buf : overflow_checks = true -> ~ subtype_fits h -> wr_data (h, p) fcs buf = Panic.
Proof.
  intros OC H. unfold wr_data, data_fcf, lwith. cbn [fst snd]. rewrite fcf_pos_type. cbn [frame_type_into_bits]. rewrite type_fits, OC.
  destruct (N.ltb_spec (data_subtype_into_bits (dh_subtype h) mod 64) 16) as [C|C]; [exfalso|reflexivity].
  apply H. intros n E. rewrite E in C. exact C.
Qed.
Lemma data_uniform h p fcs : overflow_checks = false \/ subtype_fits h ->
  (forall c, p = Some c -> Uniform (c_write c)) -> Uniform (wr_data (h, p) fcs).
Proof.
  intros H P. unfold wr_data. cbn [fst snd]. destruct (data_fcf_total (E := serr) h H) as [f E].
  apply (Uniform_ext (fun buf => '(buf, off) <- ('(buf, off) <- wseq [wr_le 2 f; wr_data_header h] buf ;;
    match p with Some p => gwrite (c_write p) buf off | None => Ok (buf, off) end) ;; if fcs then attach_fcs buf off else Ok (buf, off))).
  { intros buf. rewrite E. cbn [rbind]. destruct (wseq _ buf) as [[? ?]| |]; reflexivity. }
  apply fcs_uniform. apply (UStep_Uniform (fun buf off => '(buf, off) <- wseq_from [wr_le 2 f; wr_data_header h] buf off ;;
    match p with Some p => gwrite (c_write p) buf off | None => Ok (buf, off) end)). apply UStep_seq.
  - apply UStep_wseq. apply Forall_cons; [apply Uniform_bytes|apply Forall_cons; [|apply Forall_nil]].
    unfold wr_data_header, opt_bytes. destruct (dh_a4 h), (dh_qos h), (dh_ht h); uni.
  - destruct p as [c|]; [apply UStep_gwrite, P; reflexivity|apply UStep_ret].
Qed.
Lemma key_frame_uniform k : Uniform (c_write (key_data k)) -> Uniform (wr_key_frame k).
Proof.
  intros [[kd W]|F]; [left; exists (enc_key_frame (with_data k kd)); exact (wr_key_frame_W k kd W)|right]. intros buf. unfold wr_key_frame.
  assert (U1 : Uniform (wseq [wr_u8 2; wr_u8 3])) by uni.
  change (wseq_from [wr_u8 2; wr_u8 3] buf 0) with (wseq [wr_u8 2; wr_u8 3] buf).
  destruct (wseq [wr_u8 2; wr_u8 3] buf) as [[b1 o1]|e|] eqn:E1; cbn [rbind]; [|eauto|now apply uniform_no_panic in E1].
  match goal with |- context [wseq_from ?ws b1 ?o] => destruct (wseq_from ws b1 o) as [[b2 o2]|e|] eqn:E2 end; cbn [rbind]; [|eauto|exfalso].
  - unfold gwrite. destruct (end_bad _ _); cbn [rbind]; [eauto|]. match goal with |- context [c_write (key_data k) ?x] => destruct (F x) as [e ->] end. cbn. eauto.
  - destruct (le_lt_dec (o1 + 2) (length b1)) as [L|L]; [|cbn [wseq_from] in E2; destruct (gwrite_far (wr_u8 2) b1 (o1 + 2) L) as [e X]; rewrite X in E2; discriminate E2].
    revert E2. apply UStep_no_panic; [|exact L]. apply UStep_wseq. repeat (apply Forall_cons; [apply Uniform_bytes|]); apply Forall_nil.
Qed.
Lemma crypto_uniform h c : Uniform (c_write c) -> Uniform (c_write (c_crypto (mkCW h c Mic_NotPresent))).
Proof.
  intros U. cbn [c_write c_crypto]. apply (Uniform_ext (wseq [wr_crypto_header h; c_write c])); [|unfold wr_crypto_header; uni].
  intros buf. unfold wr_crypto_wrapped, wseq. cbn [wseq_from cw_mic cw_header cw_payload mic_length].
  assert (U2 : Uniform (wr_crypto_header h)) by (unfold wr_crypto_header; uni).
  assert (U3 : Uniform (wseq [wr_crypto_header h; c_write c])) by uni.
  destruct (gwrite (wr_crypto_header h) buf 0) as [[b1 o1]| |] eqn:E1; cbn [rbind]; try reflexivity.
  destruct (gwrite (c_write c) b1 o1) as [[b2 o2]| |] eqn:E2; cbn [rbind]; try reflexivity.
  assert (E : wseq [wr_crypto_header h; c_write c] buf = Ok (b2, o2)) by (unfold wseq; cbn [wseq_from]; rewrite E1; cbn [rbind]; rewrite E2; reflexivity).
  destruct (uniform_contained _ _ _ _ U3 E) as (L & L' & _). rewrite slice_from_ok by lia. cbn [rbind]. rewrite slice_to_ok by lia. cbn [rbind].
  cbn [repeat app skipn]. rewrite firstn_skipn, Nat.add_0_r. reflexivity.
Qed.
Lemma snap_uniform oui et c : Uniform (c_write c) -> Uniform (c_write (c_snap (mkSnap oui et c))).
Proof. intros U. cbn [c_write c_snap snap_oui snap_ether_type snap_payload]. uni. Qed.

(** ** Exceptions *)
Lemma uniform_not_panic w buf : w buf = Panic -> ~ Uniform w.
Proof. intros E U. now apply (uniform_no_panic w buf U). Qed.
Lemma peering_exact x : Uniform (et_write MeshPeeringElement x) <-> mp_rest_len x <= length (mp_rest x).
Proof.
  split; [|apply peering_uniform]. intros U. destruct (le_lt_dec (mp_rest_len x) (length (mp_rest x))) as [L|L]; [exact L|exfalso].
  apply (uniform_no_panic _ (repeat 0%N 5) U). cbn [et_write MeshPeeringElement]. unfold wr_peering.
  assert (Z : forall n v off buf, 0 < n -> off + n + slack <= length buf -> exists b, gwrite (wr_ne n v) buf off = Ok (b, off + n) /\ length b = length buf).
  { intros n v off buf N B. assert (W : exists bs, Writes (wr_ne n v) bs /\ length bs = n).
    { unfold wr_ne. destruct native_le; eexists; (split; [apply wr_bytes_W|]); [apply le_bytes_length|apply be_bytes_length]. }
    destruct W as (bs & W & <-). pose proof (gwrite_state_ok (wr_ne (length bs) v) bs (firstn off buf) buf W) as G.
    rewrite firstn_length_le in G by lia. rewrite firstn_skipn in G. rewrite G by lia. eexists. split; [rewrite app_length, firstn_length_le by lia; reflexivity|].
    rewrite !app_length, skipn_length, firstn_length_le by lia. lia. }
  pose proof slack_le.
  destruct (Z 2 (mesh_peering_proto_into_bits (mp_protocol x)) 0 (repeat 0%N 5)) as (b1 & -> & L1); [lia|rewrite repeat_length; lia|]. cbn [rbind].
  rewrite repeat_length in L1.
  destruct (Z 2 (mp_local x) (0 + 2) b1) as (b2 & -> & L2); [lia|lia|]. cbn [rbind].
  unfold slice_to, slice. destruct (Nat.leb_spec (mp_rest_len x) (length (mp_rest x))); [lia|reflexivity].
Qed.
Lemma tim_exact t : Uniform (et_write TIMElement t) <-> (te_period t < te_count t)%N \/ bitmap_readable t.
Proof.
  split.
  - intros U. destruct (N.lt_ge_cases (te_period t) (te_count t)) as [L|L]; [now left|right]. intros tb b E B P.
    exact (uniform_no_panic _ (repeat 0%N 4) U (tim_panics t tb b (repeat 0%N 4) E B P L ltac:(cbn; lia))).
  - intros [L|R]; [|now apply tim_uniform]. right. intros buf. cbn [et_write TIMElement]. unfold wr_tim, check_dtim_parameters.
    apply N.ltb_lt in L. rewrite L. cbn [rbind]. eauto.
Qed.
Lemma wseq_no_panic ws : (forall w buf, In w ws -> w buf <> Panic) -> forall buf, wseq ws buf <> Panic.
Proof.
  intros H buf. unfold wseq. generalize 0. revert buf. induction ws as [|w ws IH]; intros buf off; cbn [wseq_from]; [discriminate|].
  unfold gwrite. destruct (end_bad _ _); cbn [rbind]; [discriminate|]. destruct (w _) as [[? ?]| |] eqn:E; cbn [rbind]; [|discriminate|].
  - apply IH. intros w' b' I. apply H. now right.
  - intros _. revert E. apply H. now left.
Qed.
Lemma amsdu_no_panic l buf : Forall (fun s => Uniform (c_write (sf_payload s))) l -> c_write (c_amsdu l) buf <> Panic.
Proof.
  intros F. cbn [c_write c_amsdu]. apply wseq_no_panic. intros w b I. apply in_map_iff in I as (s & <- & I). rewrite Forall_forall in F. specialize (F s I).
  unfold wr_subframe.
  match goal with |- context [wseq ?ws b] => assert (U : Uniform (wseq ws)) by uni; destruct (wseq ws b) as [[? ?]| |] eqn:E end; cbn [rbind]; try discriminate. now apply uniform_no_panic in E.
Qed.
End F.

Lemma amsdu_leaks {cfg : Cfg} : let c := c_amsdu [sub_of sub1] in
  (exists b1 b2, c_write c (repeat 0%N 20) = Ok (b1, 16) /\ c_write c (repeat 255%N 20) = Ok (b2, 16) /\ nth 15 b1 0%N = 0%N /\ nth 15 b2 0%N = 255%N) /\
  (strict_end = false -> exists b, c_write c (repeat 0%N 15) = Ok (b, 16) /\ length b = 15) /\ ~ Uniform (c_write c).
Proof.
  intros c. assert (A : exists b1 b2, c_write c (repeat 0%N 20) = Ok (b1, 16) /\ c_write c (repeat 255%N 20) = Ok (b2, 16) /\ nth 15 b1 0%N = 0%N /\ nth 15 b2 0%N = 255%N).
  { exists ([2; 0; 0; 0; 0; 1; 2; 0; 0; 0; 0; 2; 1; 0; 7; 0; 0; 0; 0; 0]%N), ([2; 0; 0; 0; 0; 1; 2; 0; 0; 0; 0; 2; 1; 0; 7; 255; 255; 255; 255; 255]%N).
    destruct cfg as [[] [] []]; (repeat split; vm_compute; reflexivity). }
  split; [exact A|split].
  - intros SE. exists ([2; 0; 0; 0; 0; 1; 2; 0; 0; 0; 0; 2; 1; 0; 7]%N). destruct cfg as [se nl oc]. cbn in SE. subst se. destruct nl, oc; (split; vm_compute; reflexivity).
  - intros U. destruct A as (b1 & b2 & E1 & E2 & N1 & N2). destruct (uniform_same _ _ _ _ _ _ _ U E1 E2) as [_ F].
    assert (X : nth 15 (firstn 16 b1) 0%N = nth 15 (firstn 16 b2) 0%N) by now rewrite F.
    assert (Y : forall l : bytes, nth 15 (firstn 16 l) 0%N = nth 15 l 0%N) by (intros l; do 16 (destruct l as [|? l]; [reflexivity|]); reflexivity).
    rewrite !Y, N1, N2 in X. discriminate X.
Qed.
Lemma tim_not_uniform {cfg : Cfg} : exists tb, tim_bitmap_list [0; 0] = Ok tb /\ ~ Uniform (et_write TIMElement (mkTIM 0 1 (Some tb))).
Proof. destruct zero_only as (_ & tb & E & P). exists tb. split; [exact E|]. eapply uniform_not_panic, P. Qed.
Lemma crypto_not_uniform {cfg : Cfg} : let c := c_crypto (mkCW (mkCH [1; 0; 0; 0; 0; 0]%N 0) (c_bytes [1; 2; 3]%N) Mic_Short) in
  c_write c (repeat 0%N 15) = Panic /\ ~ Uniform (c_write c).
Proof.
  intros c. assert (P : c_write c (repeat 0%N 15) = Panic) by (destruct cfg as [[] [] []]; vm_compute; reflexivity).
  split; [exact P|]. exact (uniform_not_panic _ _ P).
Qed.
Lemma data_not_uniform {cfg : Cfg} : overflow_checks = true -> let h := dhdr (Dt_Unknown 16) 0 None None None in
  ~ subtype_fits h /\ ~ Uniform (wr_data (h, None) false).
Proof.
  intros OC h. split; [intros F; specialize (F 16%N eq_refl); discriminate F|]. eapply uniform_not_panic, data_unknown_subtype, OC.
Qed.
