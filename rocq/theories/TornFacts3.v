(** The programs give the results of the writers. *)
From Verif Require Import Base SpecBase BaseFacts Bits Layouts Enums Common Crc Elements ElementTypes Tim Rsn Mgmt Amsdu CryptoHeader Data
  Control Eapol Accessors Stores SpecTorn TornFacts TornFacts2.

Section Facts.
Context {cfg : Cfg}.
Lemma runs_gwrite w p buf off : Runs w p -> gwrite w buf off = gwrite (exec p) buf off.
Proof. intros R. unfold gwrite. rewrite (R (skipn off buf)). reflexivity. Qed.
Lemma runs_from ws ps : Forall2 Runs ws ps -> forall buf off, wseq_from ws buf off = wseq_from (map exec ps) buf off.
Proof.
  induction 1 as [|w p ws ps R _ IH]; intros buf off; [reflexivity|]. cbn [map wseq_from]. rewrite (runs_gwrite _ _ _ _ R).
  destruct (gwrite _ _ _) as [[b o]| |]; cbn [rbind]; [apply IH|reflexivity..].
Qed.
Lemma runs_steps ws ps : Forall2 Runs ws ps -> Runs (wseq ws) (Steps ps).
Proof. intros F buf. cbn [exec]. unfold wseq. apply runs_from. exact F. Qed.
Lemma pwrite0 w buf : pwrite w buf 0 = wseq [w] buf.
Proof. unfold pwrite, wseq. cbn [wseq_from]. destruct (gwrite w buf 0) as [[b n]| |]; cbn [rbind]; [rewrite Nat.sub_0_r|..]; reflexivity. Qed.
Lemma runs_pwrite w p : Runs w p -> Runs (fun buf => pwrite w buf 0) (Steps [p]).
Proof. intros R buf. rewrite pwrite0. apply runs_steps. repeat constructor. exact R. Qed.
Lemma runs_store bs : Runs (wr_bytes bs) (Store bs). Proof. intros buf. reflexivity. Qed.
Lemma runs_le n v : Runs (wr_le n v) (p_le n v). Proof. intros buf. reflexivity. Qed.
Lemma runs_be n v : Runs (wr_be n v) (p_be n v). Proof. intros buf. reflexivity. Qed.
Lemma runs_u8 v : Runs (wr_u8 v) (p_u8 v). Proof. intros buf. reflexivity. Qed.
Lemma runs_ne n v : Runs (wr_ne n v) (p_ne n v). Proof. intros buf. unfold wr_ne, p_ne. destruct native_le; reflexivity. Qed.
Lemma runs_opt {A} (f : A -> writer) (g : A -> Prog) o : (forall a, Runs (f a) (g a)) -> Forall2 Runs (opt_writer f o) (p_opt g o).
Proof. intros H. destruct o; [constructor; [apply H|]|]; constructor. Qed.
Lemma runs_map {A} (f : A -> writer) (g : A -> Prog) l : (forall a, Runs (f a) (g a)) -> Forall2 Runs (map f l) (map g l).
Proof. intros H. induction l; constructor; auto. Qed.
Lemma runs_ext w w' p : (forall buf, w buf = w' buf) -> Runs w' p -> Runs w p.
Proof. intros E R buf. rewrite E. apply R. Qed.
Hint Resolve runs_store runs_le runs_be runs_u8 runs_ne runs_steps runs_pwrite Forall2_nil Forall2_cons Forall2_app runs_opt runs_map : runs.

(** ** Elements *)
Lemma runs_tlv ty m w p : Runs w p -> Runs (wr_tlv ty m w) (p_tlv ty m p).
Proof. intros R buf. unfold wr_tlv, p_tlv. destruct (255 <? m); [reflexivity|]. apply runs_steps. auto with runs. Qed.
Lemma runs_wrapped e p : Runs (e_write e) p -> Runs (wr_wrapped e) (p_wrapped (e_id e) (e_measure e) p).
Proof.
  intros R buf. unfold wr_wrapped, p_wrapped, wr_typed_ext, wr_vendor, wr_prefixed. destruct (e_id e).
  all: apply runs_pwrite, runs_tlv; auto 10 with runs.
Qed.
Lemma runs_raw e : Runs (wr_raw_tlv e) (p_raw e). Proof. apply runs_tlv. auto with runs. Qed.
Lemma runs_chain f c : (forall e, In e (chain_elems c) -> Runs (e_write e) (f e)) -> Runs (wr_chain c) (p_chain f c).
Proof.
  induction c as [[e|e]|[e|e] c IH]; cbn [chain_elems wr_chain p_chain p_item]; intros H.
  - apply runs_pwrite, runs_wrapped, H. left. reflexivity.
  - apply runs_pwrite, runs_raw.
  - apply runs_steps. constructor; [apply runs_wrapped, H; left; reflexivity|]. constructor; [|constructor]. apply IH. intros e' He. apply H. right. exact He.
  - apply runs_steps. constructor; [apply runs_raw|]. constructor; [|constructor]. apply IH. exact H.
Qed.
Lemma runs_slice bs : Runs (fun buf => pwrite (wr_bytes bs) buf 0) (p_slice bs). Proof. apply runs_pwrite. auto with runs. Qed.
Lemma runs_ssid x : Runs (et_write SSIDElement x) (p_slice x). Proof. apply runs_slice. Qed.
Lemma runs_mesh_id x : Runs (et_write MeshIDElement x) (p_slice x). Proof. apply runs_slice. Qed.
Lemma runs_supported_rates x : Runs (et_write SupportedRatesElement x) (p_supported_rates x). Proof. apply runs_steps. auto with runs. Qed.
Lemma runs_extended_supported_rates x : Runs (et_write ExtendedSupportedRatesElement x) (p_extended_supported_rates x).
Proof. apply runs_steps. auto with runs. Qed.
Lemma runs_dsss x : Runs (et_write DSSSParameterSetElement x) (p_dsss x). Proof. apply runs_pwrite. auto with runs. Qed.
Lemma runs_ibss x : Runs (et_write IBSSParameterSetElement x) (p_ibss x). Proof. apply runs_pwrite. auto with runs. Qed.
Lemma runs_bss_load x : Runs (et_write BSSLoadElement x) (p_bss_load x). Proof. apply runs_steps. auto 10 with runs. Qed.
Lemma runs_mcs x : Runs (wr_mcs_set x) (p_mcs_set x). Proof. apply runs_steps. auto 10 with runs. Qed.
Hint Resolve runs_mcs : runs.
Lemma runs_ht_cap x : Runs (et_write HTCapabilitiesElement x) (p_ht_cap x). Proof. apply runs_steps. auto 10 with runs. Qed.
Lemma runs_ht_op x : Runs (et_write HTOperationElement x) (p_ht_op x). Proof. apply runs_steps. auto 10 with runs. Qed.
Lemma runs_vht_cap x : Runs (et_write VHTCapabilitiesElement x) (p_vht_cap x). Proof. apply runs_steps. auto 10 with runs. Qed.
Lemma runs_vht_op x : Runs (et_write VHTOperationElement x) (p_vht_op x). Proof. apply runs_steps. auto 10 with runs. Qed.
Lemma runs_mesh_conf x : Runs (et_write MeshConfigurationElement x) (p_mesh_conf x). Proof. apply runs_steps. auto 10 with runs. Qed.
Lemma runs_peering x : Runs (et_write MeshPeeringElement x) (p_peering x).
Proof.
  intros buf. cbn [et_write MeshPeeringElement]. unfold wr_peering, p_peering.
  rewrite (runs_gwrite _ _ _ _ (runs_ne 2 (mesh_peering_proto_into_bits (mp_protocol x)))).
  destruct (slice_to (mp_rest x) (mp_rest_len x)) as [s| |] eqn:S; cbn [app exec map wseq].
  - unfold wseq. cbn [wseq_from].
    destruct (gwrite _ buf 0) as [[b o]| |]; cbn [rbind]; [|reflexivity..]. rewrite (runs_gwrite _ _ _ _ (runs_ne 2 (mp_local x))).
    destruct (gwrite _ b o) as [[b2 o2]| |]; cbn [rbind]; [|reflexivity..]. cbn [exec]. destruct (gwrite _ b2 o2) as [[b3 o3]| |]; reflexivity.
  - unfold slice_to in S. destruct (_ <=? _); discriminate.
  - unfold wseq. cbn [wseq_from].
    destruct (gwrite _ buf 0) as [[b o]| |]; cbn [rbind]; [|reflexivity..]. rewrite (runs_gwrite _ _ _ _ (runs_ne 2 (mp_local x))).
    destruct (gwrite _ b o) as [[b2 o2]| |]; reflexivity.
Qed.
Lemma runs_owe x : Runs (et_write OWETransitionModeElement x) (p_owe x). Proof. apply runs_steps. apply Forall2_app; auto 10 with runs. Qed.
Lemma runs_kde sel n x : Runs (et_write (kde_bytes sel n) x) (p_slice x). Proof. apply runs_slice. Qed.
Lemma runs_lifetime x : Runs (et_write LifetimeKde x) (p_lifetime x). Proof. apply runs_pwrite. auto with runs. Qed.
Lemma runs_gtk x : Runs (et_write GtkKde x) (p_gtk x). Proof. apply runs_steps. auto with runs. Qed.
Lemma runs_vendor x : Runs (et_write VendorSpecificElement x) (p_vendor x). Proof. apply runs_steps. auto with runs. Qed.
Lemma runs_bitmap b : Runs (bm_write b) (p_bitmap b).
Proof.
  intros buf. unfold bm_write, p_bitmap. destruct b; [reflexivity| |].
  all: destruct (bm_bytes _) as [bs| |]; cbn [rbind]; [apply runs_slice|reflexivity..].
Qed.
Hint Resolve runs_bitmap : runs.
Lemma runs_tb t : Runs (tb_write t) (p_tim_bitmap t).
Proof. apply runs_steps. destruct (tb_bitmap t); [|destruct (tb_traffic t)]; auto with runs. Qed.
Hint Resolve runs_tb : runs.
Lemma runs_tim t : Runs (et_write TIMElement t) (p_tim t).
Proof.
  intros buf. cbn [et_write TIMElement]. unfold wr_tim, p_tim. destruct (check_dtim_parameters _ _) as [u| |]; cbn [rbind]; [|reflexivity..].
  apply runs_steps. apply Forall2_app; [auto with runs|]. destruct (te_bitmap t) as [b|]; [|constructor]. destruct (tb_is_empty b); auto with runs.
Qed.
Lemma runs_cipher x : Runs (wr_cipher x) (p_cipher x). Proof. apply runs_steps. auto with runs. Qed.
Lemma runs_akm x : Runs (wr_akm x) (p_akm x). Proof. apply runs_steps. auto with runs. Qed.
Lemma runs_rlist {A} (w : A -> writer) (p : A -> Prog) l : (forall a, Runs (w a) (p a)) -> Runs (wr_rlist w l) (p_rlist p l).
Proof. intros H. destruct l; [apply runs_steps; auto with runs|apply runs_slice]. Qed.

(** ** Fields filled in afterwards *)
Lemma skipn_two {A} (l : list A) off n : skipn (off + n) l = skipn n (skipn off l).
Proof. revert l; induction off as [|off IH]; intros l; [reflexivity|]. destruct l; [destruct n; reflexivity|]. cbn. apply IH. Qed.
Lemma end_bad_shift off n len : off <= len -> end_bad (off + n) len = end_bad n (len - off).
Proof. intros H. unfold end_bad. destruct strict_end; apply eq_true_iff_eq; rewrite ?Nat.leb_le, ?Nat.ltb_lt; lia. Qed.
Lemma end_bad_more off n len : end_bad off len = true -> end_bad (off + n) len = true.
Proof. unfold end_bad. destruct strict_end; rewrite ?Nat.leb_le, ?Nat.ltb_lt; lia. Qed.
Lemma firstn_two {A} (l : list A) off n : off <= length l -> firstn (off + n) l = firstn off l ++ firstn n (skipn off l).
Proof. intros H. revert off H; induction l as [|x l IH]; intros off H; [cbn in H; replace off with 0 by lia; destruct n; reflexivity|].
  destruct off; [reflexivity|]. cbn in *. rewrite IH by lia. reflexivity. Qed.
(** a write further on, seen from the place in front of the field *)
Lemma gwrite_shift w buf off n : off <= length buf ->
  gwrite w buf (off + n) = match gwrite w (skipn off buf) n with
                           | Ok (b, k) => Ok (firstn off buf ++ b, off + k) | Err e => Err e | Panic => Panic end.
Proof.
  intros H. unfold gwrite. rewrite end_bad_shift, skipn_length by assumption. destruct (end_bad _ _); [reflexivity|].
  rewrite skipn_two. destruct (w _) as [[b k]| |]; [|reflexivity..]. rewrite firstn_two, <- app_assoc by assumption. do 2 f_equal. lia.
Qed.
Lemma gwrite_length p buf off b n : gwrite (exec p) buf off = Ok (b, n) -> length b = length buf.
Proof. intros G. destruct (gwrite_inv _ _ _ _ _ (exec_good p) G) as (_ & _ & D). apply D. Qed.
Lemma gwrite_keeps w buf off b n k : k <= off -> gwrite w buf off = Ok (b, n) -> firstn k b = firstn k buf.
Proof.
  intros H. unfold gwrite. destruct (end_bad _ _) eqn:E; [discriminate|]. apply end_bad_le in E. destruct (w _) as [[c m]| |]; try discriminate.
  intros [= <- _]. rewrite firstn_more by (rewrite firstn_length; lia). rewrite firstn_firstn. f_equal. lia.
Qed.
(** the general form of the patches in rsn.rs and eapol.rs: the field at [off], the body at [off + n] *)
Lemma fill_at be n p value buf off :
  gwrite (exec (Fill be n p value)) buf off =
  ('(b, o) <- gwrite (exec p) buf (off + n) ;;
   '(b, _) <- pwrite (wr_bytes (field_bytes be n (value (o - (off + n))))) b off ;;
   Ok (b, o)).
Proof.
  unfold gwrite at 1. destruct (end_bad off (length buf)) eqn:E.
  - unfold gwrite. rewrite end_bad_more by assumption. reflexivity.
  - pose proof (end_bad_le _ _ E) as H. rewrite gwrite_shift by assumption. cbn [exec].
    destruct (gwrite (exec p) (skipn off buf) n) as [[b o]| |] eqn:G; cbn [rbind]; [|reflexivity..].
    replace (off + o - (off + n)) with (o - n) by lia.
    assert (L : length (firstn off buf) = off) by (rewrite firstn_length; lia).
    assert (Q : forall w, gwrite w (firstn off buf ++ b) off =
      match gwrite w b 0 with Ok (c, k) => Ok (firstn off buf ++ c, off + k) | Err e => Err e | Panic => Panic end).
    { intros w. pose proof (gwrite_shift w (firstn off buf ++ b) off 0) as S. rewrite Nat.add_0_r in S. rewrite S by (rewrite app_length; lia).
      replace (skipn off (firstn off buf ++ b)) with b by (rewrite skipn_app, skipn_all2 by lia; replace (off - length (firstn off buf)) with 0 by lia; reflexivity).
      replace (firstn off (firstn off buf ++ b)) with (firstn off buf) by (rewrite firstn_more by lia; rewrite firstn_firstn; f_equal; lia). reflexivity. }
    unfold pwrite. rewrite Q.
    destruct (gwrite (wr_bytes _) b 0) as [[b2 k]| |]; cbn [rbind]; reflexivity.
Qed.
Lemma runs_list {A} (w : A -> writer) (p : A -> Prog) l buf off : (forall a, Runs (w a) (p a)) ->
  wr_list w l buf off = gwrite (exec (p_list p l)) buf off.
Proof.
  intros H. unfold p_list. rewrite fill_at. unfold wr_list. rewrite (runs_gwrite _ _ _ _ (runs_rlist w p l H)).
  destruct (gwrite _ buf (off + 2)) as [[b o]| |] eqn:G; cbn [rbind]; [|reflexivity..].
  destruct (gwrite_inv _ _ _ _ _ (exec_good _) G) as (_ & E & _).
  replace (o - (o - (off + 2)) - 2) with off by lia. reflexivity.
Qed.
Lemma runs_rsn x : Runs (et_write RsnElement x) (p_rsn x).
Proof.
  intros buf. cbn [et_write RsnElement]. unfold wr_rsn, p_rsn. cbn [exec]. unfold wseq.
  assert (One : forall w p b o, Runs w p -> gwrite w b o = wseq_from (map exec [p]) b o).
  { intros w p b o R. rewrite (runs_gwrite _ _ _ _ R). cbn [map wseq_from]. destruct (gwrite _ _ _) as [[? ?]| |]; reflexivity. }
  Ltac step := cbn [map wseq_from]; match goal with |- rbind ?m _ = rbind ?m _ => destruct m as [[? ?]| |]; cbn [rbind]; [|reflexivity..] end.
  rewrite (runs_gwrite _ _ _ _ (runs_le 2 1)). step. destruct (rsn_group x) as [g|]; [|reflexivity]. rewrite (runs_gwrite _ _ _ _ (runs_cipher g)). step.
  destruct (rsn_pairwise x) as [pw|]; [|reflexivity]. rewrite (runs_list _ _ _ _ _ runs_cipher). step.
  destruct (rsn_akm x) as [ak|]; [|reflexivity]. rewrite (runs_list _ _ _ _ _ runs_akm). step.
  destruct (rsn_caps x) as [ca|]; [|reflexivity]. rewrite (runs_gwrite _ _ _ _ (runs_le 2 ca)). step.
  destruct (rsn_pmkids x) as [pm|]; [|reflexivity]. rewrite (runs_list wr_pmkid p_slice) by (intros; apply runs_slice). step.
  destruct (rsn_group_mgmt x) as [gm|]; [|reflexivity]. apply One, runs_cipher.
Qed.

(** ** Management frames *)
Lemma runs_empty : Runs (c_write c_empty) p_empty. Proof. intros buf. reflexivity. Qed.
Lemma runs_read_elements bs : Runs (c_write (c_read_elements bs)) (p_slice bs). Proof. apply runs_slice. Qed.
Lemma runs_bytes bs : Runs (c_write (c_bytes bs)) (Store bs). Proof. intros buf. reflexivity. Qed.
Lemma runs_beacon b p : Runs (c_write (bb_elements b)) p -> Runs (bt_write Beacon b) (p_beacon b p).
Proof. intros R. apply runs_steps. auto 10 with runs. Qed.
Lemma runs_probe_resp b p : Runs (c_write (bb_elements b)) p -> Runs (bt_write ProbeResponse b) (p_beacon b p).
Proof. intros R. apply runs_steps. auto 10 with runs. Qed.
Lemma runs_probe_req b p : Runs (c_write (pq_elements b)) p -> Runs (bt_write ProbeRequest b) p. Proof. intros R. exact R. Qed.
Lemma runs_auth b p : Runs (c_write (au_elements b)) p -> Runs (bt_write Authentication b) (p_auth b p).
Proof. intros R. apply runs_steps. auto 10 with runs. Qed.
Lemma runs_assoc_req b p : Runs (c_write (aq_elements b)) p -> Runs (bt_write AssociationRequest b) (p_assoc_req b p).
Proof. intros R. apply runs_steps. auto 10 with runs. Qed.
Lemma runs_assoc_resp b p : Runs (c_write (ar_elements b)) p -> Runs (bt_write AssociationResponse b) (p_assoc_resp b p).
Proof. intros R. apply runs_steps. auto 10 with runs. Qed.
Lemma runs_deauth b p : Runs (c_write (rb_elements b)) p -> Runs (bt_write Deauthentication b) (p_reason b p).
Proof. intros R. apply runs_steps. auto 10 with runs. Qed.
Lemma runs_disassoc b p : Runs (c_write (rb_elements b)) p -> Runs (bt_write Disassociation b) (p_reason b p).
Proof. intros R. apply runs_steps. auto 10 with runs. Qed.
Lemma runs_raw_action b : Runs (bt_write RawAction b) (p_raw_action b). Proof. apply runs_steps. auto 10 with runs. Qed.
Lemma runs_vendor_action b p : Runs (c_write (va_payload b)) p -> Runs (bt_write RawVendorSpecificAction b) (p_vendor_action b p).
Proof.
  intros R buf. cbn [bt_write RawVendorSpecificAction]. unfold append_vendor_action_header, p_vendor_action. cbn [exec map]. unfold wseq. cbn [wseq_from].
  change (exec (p_u8 ?v)) with (wr_u8 v). cbn [exec].
  destruct (gwrite _ buf 0) as [[b1 o1]| |]; cbn [rbind]; [|reflexivity..]. destruct (gwrite _ b1 o1) as [[b2 o2]| |]; cbn [rbind]; [|reflexivity..].
  rewrite (runs_gwrite _ _ _ _ R). destruct (gwrite _ b2 o2) as [[b3 o3]| |]; reflexivity.
Qed.
Lemma runs_mesh_open b p : Runs (c_write (mo_elements b)) p -> Runs (bt_write MeshPeeringOpen b) (p_mesh_open b p).
Proof. intros R. apply runs_steps. cbn [app p_self_protected wr_self_protected_header]. auto 10 with runs. Qed.
Lemma runs_mesh_confirm b p : Runs (c_write (mc_elements b)) p -> Runs (bt_write MeshPeeringConfirm b) (p_mesh_confirm b p).
Proof. intros R. apply runs_steps. cbn [app p_self_protected wr_self_protected_header]. auto 10 with runs. Qed.
Lemma runs_mesh_close b p : Runs (c_write (ml_elements b)) p -> Runs (bt_write MeshPeeringClose b) (p_mesh_close p).
Proof. intros R. apply runs_steps. cbn [app p_self_protected wr_self_protected_header]. auto 10 with runs. Qed.
Lemma runs_mgmt_header h : Runs (wr_mgmt_header h) (p_mgmt_header h).
Proof. apply runs_steps. apply Forall2_app; [auto 10 with runs|]. destruct (mh_ht h); cbn [p_opt]; auto with runs. Qed.
Lemma runs_mgmt {W R} (t : BodyType W R) h b p fcs : Runs (bt_write t b) p -> Runs (wr_mgmt t h b fcs) (p_mgmt (bt_subtype t) h p fcs).
Proof.
  intros H buf. unfold wr_mgmt, p_mgmt.
  assert (F : Runs (wseq [wr_le 2 (fcf_make (FT_Management (bt_subtype t)) (mh_flags h)); wr_mgmt_header h; bt_write t b])
                (Steps [p_le 2 (fcf_make (FT_Management (bt_subtype t)) (mh_flags h)); p_mgmt_header h; p])).
  { apply runs_steps. constructor; [apply runs_le|]. constructor; [apply runs_mgmt_header|]. auto with runs. }
  rewrite F. destruct fcs; [reflexivity|]. destruct (exec _ buf) as [[b1 o]| |]; reflexivity.
Qed.

(** ** Data frames and control frames *)
Lemma runs_data_header h : Runs (wr_data_header h) (p_data_header h).
Proof.
  apply runs_steps. repeat (apply Forall2_app; [auto 10 with runs|]); [destruct (dh_a4 h)|destruct (dh_qos h)|destruct (dh_ht h)]; cbn [opt_bytes p_opt]; auto with runs.
Qed.
Lemma wseq_app ws ws' buf off : wseq_from (ws ++ ws') buf off = ('(b, o) <- wseq_from ws buf off ;; wseq_from ws' b o).
Proof.
  revert buf off; induction ws as [|w ws IH]; intros buf off; [reflexivity|]. cbn [app wseq_from]. destruct (gwrite w buf off) as [[b o]| |]; cbn [rbind]; [apply IH|reflexivity..].
Qed.
Lemma runs_data h (c : option Container) po fcs :
  match c, po with Some c, Some p => Runs (c_write c) p | None, None => True | _, _ => False end ->
  Runs (wr_data (h, c) fcs) (p_data h po fcs).
Proof.
  intros H buf. unfold wr_data, p_data. cbn [fst snd]. destruct (data_fcf h) as [fcf| |]; cbn [rbind]; [|reflexivity..].
  assert (F : ('(b, o) <- wseq [wr_le 2 fcf; wr_data_header h] buf ;;
               match c with Some p => gwrite (c_write p) b o | None => Ok (b, o) end)
              = exec (Steps ([p_le 2 fcf; p_data_header h] ++ p_opt (fun p => p) po)) buf).
  { cbn [exec]. rewrite map_app. unfold wseq. rewrite wseq_app.
    rewrite (runs_from [wr_le 2 fcf; wr_data_header h] [p_le 2 fcf; p_data_header h])
      by (constructor; [apply runs_le|]; constructor; [apply runs_data_header|]; constructor).
    destruct (wseq_from (map exec _) buf 0) as [[b o]| |]; cbn [rbind]; [|reflexivity..].
    destruct c as [c|], po as [p|]; try contradiction; cbn [p_opt map wseq_from]; [|reflexivity].
    rewrite (runs_gwrite _ _ _ _ H). destruct (gwrite _ b o) as [[? ?]| |]; reflexivity. }
  destruct fcs; cbn [exec] in *; rewrite <- F; destruct (wseq [wr_le 2 fcf; wr_data_header h] buf) as [[b o]| |]; cbn [rbind]; try reflexivity.
  destruct c as [c|]; cbn [rbind]; [|reflexivity]. destruct (gwrite _ b o) as [[? ?]| |]; reflexivity.
Qed.
Lemma runs_payload p : Runs (c_write (c_payload p)) (p_slice (match p with Pl_Single bs | Pl_AMSDU (Some bs) => bs | Pl_AMSDU None => [] end)).
Proof. destruct p as [bs|[bs|]]; apply runs_slice. Qed.
Lemma runs_subframe s p : Runs (c_write (sf_payload s)) p -> Runs (wr_subframe s) (p_subframe s p).
Proof.
  intros R buf. unfold wr_subframe, p_subframe. cbn [exec].
  rewrite (runs_steps [wr_bytes (sf_da s); wr_bytes (sf_sa s); wr_le 2 (N.of_nat (c_measure (sf_payload s))); c_write (sf_payload s)]
             [Store (sf_da s); Store (sf_sa s); p_le 2 (N.of_nat (c_measure (sf_payload s))); p]) by auto 10 with runs. reflexivity.
Qed.
Lemma runs_amsdu f l : (forall s, In s l -> Runs (c_write (sf_payload s)) (f (sf_payload s))) -> Runs (c_write (c_amsdu l)) (p_amsdu f l).
Proof.
  intros H. apply runs_steps. induction l as [|s l IH]; constructor; [apply runs_subframe, H; left; reflexivity|].
  apply IH. intros t Ht. apply H. right. exact Ht.
Qed.
Lemma runs_crypto_header h : Runs (wr_crypto_header h) (p_crypto_header h). Proof. apply runs_steps. auto 10 with runs. Qed.
Lemma runs_crypto w p : Runs (c_write (cw_payload w)) p -> Runs (c_write (c_crypto w)) (p_crypto w p).
Proof.
  intros R buf. cbn [c_write c_crypto]. unfold wr_crypto_wrapped, p_crypto. cbn [exec map]. unfold wseq. cbn [wseq_from].
  rewrite (runs_gwrite _ _ _ _ (runs_crypto_header (cw_header w))). destruct (gwrite _ buf 0) as [[b o]| |]; cbn [rbind]; [|reflexivity..].
  rewrite (runs_gwrite _ _ _ _ R). destruct (gwrite _ b o) as [[b2 o2]| |]; cbn [rbind]; [|reflexivity..].
  rewrite repeat_length. reflexivity.
Qed.
Lemma runs_snap (s : Snap Container) p : Runs (c_write (snap_payload s)) p -> Runs (c_write (c_snap s)) (p_snap s p).
Proof. intros R. apply runs_steps. auto 10 with runs. Qed.
Lemma skipn_pre {A} (pre b : list A) : skipn (length pre) (pre ++ b) = b. Proof. induction pre; [reflexivity|assumption]. Qed.
Lemma firstn_pre {A} (pre b : list A) : firstn (length pre) (pre ++ b) = pre. Proof. induction pre; [reflexivity|]. cbn. f_equal. assumption. Qed.
Lemma wseq_shift ws (pre : bytes) : forall b n,
  wseq_from ws (pre ++ b) (length pre + n) =
  match wseq_from ws b n with Ok (c, k) => Ok (pre ++ c, length pre + k) | Err e => Err e | Panic => Panic end.
Proof.
  induction ws as [|w ws IH]; intros b n; [reflexivity|]. cbn [wseq_from]. rewrite gwrite_shift by (rewrite app_length; lia).
  rewrite skipn_pre, firstn_pre. destruct (gwrite w b n) as [[c k]| |]; cbn [rbind]; [apply IH|reflexivity..].
Qed.
Lemma gwrite_wseq w ws buf off : gwrite (wseq (w :: ws)) buf off = wseq_from (w :: ws) buf off.
Proof.
  unfold gwrite at 1. destruct (end_bad off (length buf)) eqn:E.
  - cbn [wseq_from]. unfold gwrite. rewrite E. reflexivity.
  - apply end_bad_le in E. pose proof (wseq_shift (w :: ws) (firstn off buf) (skipn off buf) 0) as S.
    rewrite firstn_skipn, firstn_length, Nat.min_l, Nat.add_0_r in S by assumption. rewrite S. reflexivity.
Qed.
Lemma runs_key_frame k p : Runs (c_write (key_data k)) p -> Runs (c_write (c_key_frame k)) (p_key_frame k p).
Proof.
  intros R buf. cbn [c_write c_key_frame]. unfold wr_key_frame, p_key_frame.
  set (front := [p_u8 2; p_be 2 (key_information k); p_be 2 (key_length k); p_be 8 (key_replay_counter k); Store (key_nonce k); p_be 16 (key_iv k);
                 p_be 8 (key_rsc k); p_be 8 0; Store (key_mic k)]).
  set (v := fun size : nat => (N.of_nat size mod 65536)%N).
  transitivity (wseq_from ([wr_u8 2; wr_u8 3] ++ [exec (Fill true 2 (Steps (front ++ [Fill true 2 p v])) v)]) buf 0); [|reflexivity].
  change (wseq_from [wr_u8 2; wr_be 2 (key_information k); wr_be 2 (key_length k); wr_be 8 (key_replay_counter k); wr_bytes (key_nonce k);
                     wr_be 16 (key_iv k); wr_be 8 (key_rsc k); wr_be 8 0; wr_bytes (key_mic k)]) with (wseq_from (map exec front)).
  rewrite wseq_app. destruct (wseq_from [wr_u8 2; wr_u8 3] buf 0) as [[b o]| |]; cbn [rbind]; [|reflexivity..].
  cbn [wseq_from]. rewrite fill_at.
  assert (E : gwrite (exec (Steps (front ++ [Fill true 2 p v]))) b (o + 2) = wseq_from (map exec front ++ [exec (Fill true 2 p v)]) b (o + 2)).
  { cbn [exec]. rewrite map_app. cbn [map front app]. apply gwrite_wseq. }
  rewrite E, wseq_app. destruct (wseq_from (map exec front) b (o + 2)) as [[b1 o1]| |]; cbn [rbind]; [|reflexivity..].
  cbn [wseq_from]. rewrite fill_at, (runs_gwrite _ _ _ _ R).
  destruct (gwrite (exec p) b1 (o1 + 2)) as [[b2 o2]| |]; cbn [rbind]; [|reflexivity..].
  unfold v at 1, field_bytes at 1, wr_be. replace (o2 - (o1 + 2)) with (o2 - o1 - 2) by lia.
  destruct (pwrite _ b2 o1) as [[b3 o3]| |]; cbn [rbind]; [|reflexivity..].
  unfold v, field_bytes. replace (o2 - (o + 2)) with (o2 - o - 2) by lia.
  destruct (pwrite _ b3 o) as [[b4 o4]| |]; reflexivity.
Qed.
Lemma runs_ctrl c : Runs (wr_ctrl c) (p_ctrl c). Proof. destruct c; apply runs_steps; auto 10 with runs. Qed.
Lemma runs_eapol (d : EapolDataFrame) p fcs : match snd d with Some s => Runs (c_write (key_data (snap_payload s))) p | None => True end ->
  Runs (wr_data (eapol_data d) fcs)
       (p_data (fst d) (match snd d with Some s => Some (p_snap s (p_key_frame (snap_payload s) p)) | None => None end) fcs).
Proof.
  intros H. unfold eapol_data. apply runs_data. destruct (snd d) as [s|]; [|exact I].
  apply (runs_snap (mkSnap (snap_oui s) (snap_ether_type s) (c_key_frame (snap_payload s)))). apply runs_key_frame. exact H.
Qed.
Lemma runs_action_header oui buf off : append_vendor_action_header oui buf off = wseq_from (map exec [p_u8 (category_into_bits Cat_VendorSpecific); Store oui]) buf off.
Proof. reflexivity. Qed.
End Facts.
