(** Proofs about action frame bodies. *)
From Verif Require Import Base BaseFacts Bits Layouts BitsFacts Enums EnumsFacts Common SpecBase SpecCommon CommonFacts Crc CrcFacts
  Elements SpecElements ElementsFacts ElementTypes SpecElementTypes ElementTypesFacts StepsFacts Mgmt SpecMgmt MgmtFacts MgmtFacts2.

Local Ltac lens := rewrite ?app_length, ?le_bytes_length, ?be_bytes_length, ?ne_bytes_length; cbn [length].
Local Ltac start A := match goal with |- context [gread _ ?x 0] => pose proof (At_start x) as A end; rewrite <- ?app_assoc in *.
Local Ltac fixed_ws := repeat (constructor; [first [apply wr_u8_small; (assumption || reflexivity) | apply wr_bytes_W]|]); constructor.

Lemma category_eqb_spec a b : reflect (a = b) (category_eqb a b).
Proof.
  destruct a, b; cbn [category_eqb]; try (constructor; congruence).
  destruct (N.eqb_spec n n0); constructor; congruence.
Qed.
Lemma self_prot_eqb_spec a b : reflect (a = b) (self_prot_eqb a b).
Proof.
  destruct a, b; cbn [self_prot_eqb]; try (constructor; congruence).
  destruct (N.eqb_spec n n0); constructor; congruence.
Qed.
Lemma arr_eqb_spec a b : reflect (a = b) (arr_eqb a b).
Proof.
  revert b; induction a as [|x a IH]; intros [|y b]; cbn [arr_eqb]; try (constructor; congruence).
  destruct (N.eqb_spec x y); cbn [andb]; [|constructor; congruence].
  destruct (IH b); constructor; congruence.
Qed.
Lemma category_is b c : category_from_bits (category_into_bits c) = c ->
  category_eqb (category_from_bits b) c = (b =? category_into_bits c)%N.
Proof.
  intros K. destruct (category_eqb_spec (category_from_bits b) c) as [E|E], (N.eqb_spec b (category_into_bits c)) as [F|F]; auto.
  - elim F. now rewrite <- E, category_into_from.
  - elim E. now rewrite F.
Qed.
Lemma self_prot_is b c : self_prot_from_bits (self_prot_into_bits c) = c ->
  self_prot_eqb (self_prot_from_bits b) c = (b =? self_prot_into_bits c)%N.
Proof.
  intros K. destruct (self_prot_eqb_spec (self_prot_from_bits b) c) as [E|E], (N.eqb_spec b (self_prot_into_bits c)) as [F|F]; auto.
  - elim F. now rewrite <- E, self_prot_into_from.
  - elim E. now rewrite F.
Qed.

Section Facts.
Context {cfg : Cfg}.

Lemma gread_u8_cons b rest : gread rd_u8 (b :: rest) 0 = Ok (b, 1).
Proof. rewrite (gread_at _ _ _ _ (At_start (b :: rest))) by (right; discriminate). reflexivity. Qed.
Lemma gread_u8_cons2 a b rest : gread rd_u8 (a :: b :: rest) 1 = Ok (b, 2).
Proof. rewrite (gread_at _ _ _ (b :: rest)); [reflexivity| |right; discriminate]. split; reflexivity. Qed.
Lemma rd_raw_action_cons b rest : rd_raw_action (b :: rest) = Ok (mkRA (category_from_bits b) rest, 1).
Proof. unfold rd_raw_action. rewrite gread_u8_cons. reflexivity. Qed.

(** ** Raw *)
Lemma raw_action_rt : MgmtRoundTrip RawAction 13 ok_raw_action fixed_raw_action (fun b => c_bytes (ra_payload b)) with_raw_action True.
Proof.
  apply mgmt_round_trip; try reflexivity.
  - intros w [_ H]. repeat constructor. exact H.
  - discriminate.
  - intros w es [_ H] W. eapply (body_W [_]); [fixed_ws|reflexivity|exact W].
  - intros w es [_ H] W N. eapply (body_T [_]); [fixed_ws|reflexivity|exact W|exact N].
  - intros w es [C H] We _. eexists. cbn [bt_read RawAction fixed_raw_action app]. rewrite rd_raw_action_cons, C. reflexivity.
Qed.
Lemma rd_raw_action_inv body r n : wf_bytes body -> rd_raw_action body = Ok (r, n) -> True ->
  ok_raw_action r /\ body = fixed_raw_action r ++ ra_payload r.
Proof.
  intros W E _. destruct body as [|b rest].
  { unfold rd_raw_action, gread, end_bad in E. destruct strict_end; discriminate. }
  rewrite rd_raw_action_cons in E. injection E as <- _. apply wf_bytes_cons in W as [H _].
  unfold ok_raw_action, fixed_raw_action, u8. cbn [ra_category ra_payload]. rewrite !category_into_from. auto.
Qed.
Lemma rd_raw_action_NP : NoPanic rd_raw_action.
Proof.
  intros [|b rest]; [|now rewrite rd_raw_action_cons].
  unfold rd_raw_action, gread, end_bad. destruct strict_end; discriminate.
Qed.
Lemma rd_raw_action_IB : InBounds rd_raw_action.
Proof.
  intros [|b rest] x n E.
  - unfold rd_raw_action, gread, end_bad in E. destruct strict_end; discriminate.
  - rewrite rd_raw_action_cons in E. injection E as _ <-. cbn. lia.
Qed.

(** ** Vendor specific *)
Lemma vendor_write w buf : bt_write RawVendorSpecificAction w buf
  = wseq ([wr_u8 127; wr_bytes (va_oui w)] ++ [c_write (va_payload w)]) buf.
Proof.
  unfold wseq. rewrite wseq_from_app. cbn [bt_write RawVendorSpecificAction]. unfold append_vendor_action_header.
  change (category_into_bits Cat_VendorSpecific) with 127%N.
  destruct (wseq_from [wr_u8 127; wr_bytes (va_oui w)] buf 0) as [[b o]| |]; cbn [rbind wseq_from]; auto.
  destruct (gwrite _ b o) as [[? ?]| |]; reflexivity.
Qed.
Lemma vendor_rt : MgmtRoundTrip RawVendorSpecificAction 13 ok_vendor fixed_vendor va_payload with_vendor True.
Proof.
  apply mgmt_round_trip; try reflexivity.
  - intros w [_ H]. apply wf_bytes_cons. split; [lia|exact H].
  - discriminate.
  - intros w es [_ H] W. eapply Writes_ext; [apply vendor_write|].
    eapply (body_W [_; _]); [fixed_ws|cbn [concat]; now rewrite app_nil_r|exact W].
  - intros w es [_ H] W N. eapply WritesT_ext; [apply vendor_write|].
    eapply (body_T [_; _]); [fixed_ws|cbn [concat]; now rewrite app_nil_r|exact W|exact N].
  - intros w es [L H] We _. eexists. cbn [bt_read RawVendorSpecificAction]. unfold rd_vendor_action, fixed_vendor.
    change (127%N :: va_oui w) with ([127%N] ++ va_oui w). start P. rstep P.
    change (category_eqb (category_from_bits 127) Cat_VendorSpecific) with true. cbn [negb]. rstep P.
    rewrite (slice_from_at _ _ _ P). cbn [rbind]. reflexivity.
Qed.
Lemma rd_vendor_action_inv body r n : wf_bytes body -> rd_vendor_action body = Ok (r, n) -> True ->
  ok_vendor r /\ body = fixed_vendor r ++ va_payload r.
Proof.
  intros W E _. destruct body as [|b rest].
  { unfold rd_vendor_action, gread, end_bad in E. destruct strict_end; discriminate. }
  unfold rd_vendor_action in E. rewrite gread_u8_cons in E. cbn [rbind] in E.
  rewrite (category_is b Cat_VendorSpecific eq_refl) in E. change (category_into_bits Cat_VendorSpecific) with 127%N in E.
  destruct (N.eqb_spec b 127) as [->|]; [|discriminate]. cbn [negb] in E. apply wf_bytes_cons in W as [_ W].
  destruct (gread (rd_bytes 3) _ 1) as [[oui o]| |] eqn:G; try discriminate. cbn [rbind] in E.
  apply gread_inv in G as (_ & k & G & ->). cbn [skipn] in G. apply rd_bytes_inv in G as (-> & q & -> & L).
  rewrite (slice_from_at _ _ q) in E.
  2:{ change (127%N :: oui ++ q) with ((127%N :: oui) ++ q). apply At_app. cbn. lia. }
  cbn [rbind] in E. injection E as <- _. apply wf_bytes_app in W as [W _]. split; [split; assumption|reflexivity].
Qed.
Lemma rd_vendor_action_NP : NoPanic rd_vendor_action.
Proof.
  intros [|b rest].
  - unfold rd_vendor_action, gread, end_bad. destruct strict_end; discriminate.
  - unfold rd_vendor_action. rewrite gread_u8_cons. cbn [rbind]. destruct (negb _); [discriminate|].
    destruct (gread (rd_bytes 3) _ 1) as [[oui o]| |] eqn:G; cbn [rbind]; [|discriminate|elim (gread_no_panic _ _ _ (rd_bytes_NP 3) G)].
    apply gread_bounds in G; [|apply rd_bytes_IB]. unfold slice_from.
    destruct (Nat.leb_spec o (length (b :: rest))); [discriminate|lia].
Qed.
Lemma rd_vendor_action_IB : InBounds rd_vendor_action.
Proof.
  intros from x n E. unfold rd_vendor_action in E.
  destruct (gread rd_u8 from 0) as [[a o]| |]; try discriminate. cbn [rbind] in E.
  destruct (negb _); [discriminate|].
  destruct (gread (rd_bytes 3) from o) as [[oui o2]| |] eqn:G; try discriminate. cbn [rbind] in E.
  destruct (slice_from from o2); try discriminate. cbn [rbind] in E. injection E as _ <-.
  apply gread_bounds in G; [lia|apply rd_bytes_IB].
Qed.

(** ** Self-protected *)
Lemma sp_header code rest : self_prot_from_bits (self_prot_into_bits code) = code ->
  rd_self_protected_header code (15%N :: self_prot_into_bits code :: rest) = Ok 2.
Proof.
  intros C. unfold rd_self_protected_header. rewrite gread_u8_cons. cbn [rbind].
  change (negb (category_eqb (category_from_bits 15) Cat_SelfProtected)) with false. cbv iota.
  rewrite gread_u8_cons2. cbn [rbind]. rewrite C.
  destruct (self_prot_eqb_spec code code); [reflexivity|congruence].
Qed.
Lemma sp_header_inv code body o : self_prot_from_bits (self_prot_into_bits code) = code ->
  rd_self_protected_header code body = Ok o -> o = 2 /\ exists rest, body = 15%N :: self_prot_into_bits code :: rest.
Proof.
  intros C E. unfold rd_self_protected_header in E. destruct body as [|b [|c rest]].
  - unfold gread, end_bad in E. destruct strict_end; discriminate.
  - rewrite gread_u8_cons in E. cbn [rbind] in E. destruct (negb _); [discriminate|].
    unfold gread, end_bad in E. destruct strict_end; discriminate.
  - rewrite gread_u8_cons in E. cbn [rbind] in E.
    rewrite (category_is b Cat_SelfProtected eq_refl) in E. change (category_into_bits Cat_SelfProtected) with 15%N in E.
    destruct (N.eqb_spec b 15) as [->|]; [|discriminate]. cbn [negb] in E.
    rewrite gread_u8_cons2 in E. cbn [rbind] in E. rewrite (self_prot_is c code C) in E.
    destruct (N.eqb_spec c (self_prot_into_bits code)) as [->|]; [|discriminate]. cbn [negb] in E.
    injection E as <-. eauto.
Qed.
Lemma sp_header_NP code body : rd_self_protected_header code body <> Panic.
Proof.
  unfold rd_self_protected_header.
  destruct (gread rd_u8 body 0) as [[a o]| |] eqn:G; cbn [rbind]; [|discriminate|elim (gread_no_panic _ _ _ rd_u8_NP G)].
  destruct (negb _); [discriminate|].
  destruct (gread rd_u8 body o) as [[b o2]| |] eqn:G2; cbn [rbind]; [|discriminate|elim (gread_no_panic _ _ _ rd_u8_NP G2)].
  destruct (negb _); discriminate.
Qed.
Lemma rd_elements_NP' : NoPanic rd_elements. Proof. exact rd_elements_NP. Qed.
Lemma rd_elements_IB' : InBounds rd_elements. Proof. exact rd_elements_IB. Qed.
Hint Resolve rd_elements_NP' : np.
Hint Resolve rd_elements_IB' : ib.

Lemma open_rt : MgmtRoundTrip MeshPeeringOpen 13 ok_open fixed_open mo_elements with_open False.
Proof.
  apply mgmt_round_trip; try reflexivity.
  - intros w _. unfold fixed_open. rewrite wf_bytes_app. split; [repeat constructor|apply le_bytes_wf].
  - intros [].
  - intros w es _ W. eapply (body_W [_; _; _]); [fixed_ws|cbn [concat]; now rewrite app_nil_r|exact W].
  - intros w es _ W N. eapply (body_T [_; _; _]); [fixed_ws|cbn [concat]; now rewrite app_nil_r|exact W|exact N].
  - intros w es H We [[]|K]. eexists. cbn [bt_read MeshPeeringOpen]. unfold rd_mesh_open, fixed_open, ok_open, u16 in *.
    rewrite <- !app_assoc. cbn [app]. rewrite (sp_header Sp_MeshPeeringOpen) by reflexivity. cbn [rbind].
    change (15%N :: 1%N :: le_bytes 2 (mo_capabilities w) ++ es) with ([15; 1]%N ++ le_bytes 2 (mo_capabilities w) ++ es).
    assert (P : At ([15; 1]%N ++ le_bytes 2 (mo_capabilities w) ++ es) 2 (le_bytes 2 (mo_capabilities w) ++ es)) by now apply At_app.
    rstep P. rewrite (gread_elements _ _ _ P K). cbn [rbind]. reflexivity.
Qed.
Lemma rd_open_inv body r n : wf_bytes body -> rd_mesh_open body = Ok (r, n) -> True ->
  ok_open r /\ body = fixed_open r ++ mo_elements r.
Proof.
  intros W E _. unfold rd_mesh_open in E.
  destruct (rd_self_protected_header _ body) as [o| |] eqn:H; try discriminate. cbn [rbind] in E.
  apply sp_header_inv in H as (-> & rest & ->); [|reflexivity].
  apply wf_bytes_cons in W as [_ W]. apply wf_bytes_cons in W as [_ W].
  assert (L : 2 <= length rest). { rinv E. cbn [length] in *. lia. }
  revert E. destruct (split_le 2 rest W L) as (a & r1 & Ha & -> & W1 & L1).
  change (15%N :: self_prot_into_bits Sp_MeshPeeringOpen :: le_bytes 2 a ++ r1) with ([15; 1]%N ++ le_bytes 2 a ++ r1).
  assert (P : At ([15; 1]%N ++ le_bytes 2 a ++ r1) 2 (le_bytes 2 a ++ r1)) by now apply At_app.
  rstep P. intros E.
  destruct (gread rd_elements _ _) as [[x o]| |] eqn:G; try discriminate. cbn [rbind] in E. injection E as <- <-.
  apply (gread_elements_inv _ _ _ _ _ P) in G as ->.
  split; [exact Ha|]. unfold fixed_open. cbn [mo_capabilities mo_elements]. now rewrite <- !app_assoc.
Qed.
Lemma rd_open_NP : NoPanic rd_mesh_open.
Proof.
  intros from. unfold rd_mesh_open. pose proof (sp_header_NP Sp_MeshPeeringOpen from).
  destruct (rd_self_protected_header _ from); cbn [rbind]; [np|discriminate|congruence].
Qed.
Lemma rd_open_IB : InBounds rd_mesh_open.
Proof.
  intros from x n E. unfold rd_mesh_open in E. destruct (rd_self_protected_header _ from); try discriminate.
  cbn [rbind] in E. rinv E. injection E as _ <-. lia.
Qed.

Lemma confirm_rt : MgmtRoundTrip MeshPeeringConfirm 13 ok_confirm fixed_confirm mc_elements with_confirm False.
Proof.
  apply mgmt_round_trip; try reflexivity.
  - intros w _. unfold fixed_confirm. rewrite !wf_bytes_app. split; [repeat constructor|split; apply le_bytes_wf].
  - intros [].
  - intros w es _ W. eapply (body_W [_; _; _; _]); [fixed_ws|cbn [concat]; now rewrite app_nil_r|exact W].
  - intros w es _ W N. eapply (body_T [_; _; _; _]); [fixed_ws|cbn [concat]; now rewrite app_nil_r|exact W|exact N].
  - intros w es [H Ha] We [[]|K]. eexists. cbn [bt_read MeshPeeringConfirm]. unfold rd_mesh_confirm, fixed_confirm, u16 in *.
    rewrite <- !app_assoc. cbn [app]. rewrite (sp_header Sp_MeshPeeringConfirm) by reflexivity. cbn [rbind].
    set (q := le_bytes 2 (mc_capabilities w) ++ le_bytes 2 (mc_aid w) ++ es).
    change (15%N :: 2%N :: q) with ([15; 2]%N ++ q).
    assert (P : At ([15; 2]%N ++ q) 2 (le_bytes 2 (mc_capabilities w) ++ le_bytes 2 (mc_aid w) ++ es)) by now apply At_app.
    pose proof (ok_aid_u16 _ Ha).
    rstep P. rstep P. rewrite (aid_field_keep _ Ha). rewrite (gread_elements _ _ _ P K). cbn [rbind]. reflexivity.
Qed.
Lemma rd_confirm_inv body r n : wf_bytes body -> rd_mesh_confirm body = Ok (r, n) -> canon_confirm body ->
  ok_confirm r /\ body = fixed_confirm r ++ mc_elements r.
Proof.
  intros W E C. unfold rd_mesh_confirm in E.
  destruct (rd_self_protected_header _ body) as [o| |] eqn:H; try discriminate. cbn [rbind] in E.
  apply sp_header_inv in H as (-> & rest & ->); [|reflexivity].
  apply wf_bytes_cons in W as [_ W]. apply wf_bytes_cons in W as [_ W].
  assert (L : 4 <= length rest).
  { destruct (gread (rd_le 2) _ 2) as [[a o]| |] eqn:G1; try discriminate. cbn [rbind] in E.
    destruct (gread (rd_le 2) _ o) as [[b o2]| |] eqn:G2; try discriminate. clear E.
    assert (B := G2). apply gread_bounds in B; [|apply rd_le_IB].
    eapply gread_size in G1; [|apply rd_le_size]. eapply gread_size in G2; [|apply rd_le_size]. cbn [length] in *. lia. }
  revert E. destruct (split_le 2 rest W) as (a & r1 & Ha & -> & W1 & L1); [lia|].
  destruct (split_le 2 r1 W1) as (b & r2 & Hb & -> & W2 & L2); [lia|].
  unfold canon_confirm in C.
  change (15%N :: self_prot_into_bits Sp_MeshPeeringConfirm :: le_bytes 2 a ++ le_bytes 2 b ++ r2)
    with ([15; 2]%N ++ le_bytes 2 a ++ le_bytes 2 b ++ r2) in *.
  rewrite (aid_field_at [15; 2]%N (le_bytes 2 a) b r2 Hb eq_refl eq_refl) in C.
  assert (P : At ([15; 2]%N ++ le_bytes 2 a ++ le_bytes 2 b ++ r2) 2 (le_bytes 2 a ++ le_bytes 2 b ++ r2)) by now apply At_app.
  rstep P. rstep P. intros E. destruct (aid_new_checked b) as [d|] eqn:D; [|discriminate].
  pose proof (aid_checked_ok b d D) as Od. apply aid_checked_same in D; auto. subst d.
  destruct (gread rd_elements _ _) as [[x o]| |] eqn:G; try discriminate. cbn [rbind] in E. injection E as <- <-.
  apply (gread_elements_inv _ _ _ _ _ P) in G as ->.
  split; [split; assumption|]. unfold fixed_confirm. cbn [mc_capabilities mc_aid mc_elements]. now rewrite <- !app_assoc.
Qed.
Lemma rd_confirm_NP : NoPanic rd_mesh_confirm.
Proof.
  intros from. unfold rd_mesh_confirm. pose proof (sp_header_NP Sp_MeshPeeringConfirm from).
  destruct (rd_self_protected_header _ from) as [o| |]; cbn [rbind]; [|discriminate|congruence].
  destruct (gread (rd_le 2) from o) as [[a o1]| |] eqn:G1; cbn [rbind]; [|discriminate|elim (gread_no_panic _ _ _ (rd_le_NP 2) G1)].
  destruct (gread (rd_le 2) from o1) as [[b o2]| |] eqn:G2; cbn [rbind]; [|discriminate|elim (gread_no_panic _ _ _ (rd_le_NP 2) G2)].
  destruct (aid_new_checked b); [np|discriminate].
Qed.
Lemma rd_confirm_IB : InBounds rd_mesh_confirm.
Proof.
  intros from x n E. unfold rd_mesh_confirm in E. destruct (rd_self_protected_header _ from) as [o| |]; try discriminate.
  cbn [rbind] in E.
  destruct (gread (rd_le 2) from o) as [[a o1]| |]; try discriminate. cbn [rbind] in E.
  destruct (gread (rd_le 2) from o1) as [[b o2]| |]; try discriminate. cbn [rbind] in E.
  destruct (aid_new_checked b); [|discriminate].
  destruct (gread rd_elements from o2) as [[e o4]| |] eqn:G; try discriminate. cbn [rbind] in E.
  injection E as _ <-. apply gread_bounds in G; [lia|apply rd_elements_IB].
Qed.

Lemma close_rt : MgmtRoundTrip MeshPeeringClose 13 ok_any fixed_close ml_elements with_close False.
Proof.
  apply mgmt_round_trip; try reflexivity.
  - intros w _. repeat constructor.
  - intros [].
  - intros w es _ W. eapply (body_W [_; _]); [fixed_ws|reflexivity|exact W].
  - intros w es _ W N. eapply (body_T [_; _]); [fixed_ws|reflexivity|exact W|exact N].
  - intros w es _ We [[]|K]. eexists. cbn [bt_read MeshPeeringClose]. unfold rd_mesh_close, fixed_close.
    cbn [app]. rewrite (sp_header Sp_MeshPeeringClose) by reflexivity. cbn [rbind].
    assert (P : At (15%N :: 3%N :: es) 2 es) by (split; reflexivity).
    rewrite (gread_elements _ _ _ P K). cbn [rbind]. reflexivity.
Qed.
Lemma rd_close_inv body r n : wf_bytes body -> rd_mesh_close body = Ok (r, n) -> True ->
  ok_any r /\ body = fixed_close r ++ ml_elements r.
Proof.
  intros W E _. unfold rd_mesh_close in E.
  destruct (rd_self_protected_header _ body) as [o| |] eqn:H; try discriminate. cbn [rbind] in E.
  apply sp_header_inv in H as (-> & rest & ->); [|reflexivity].
  destruct (gread rd_elements _ _) as [[x o]| |] eqn:G; try discriminate. cbn [rbind] in E. injection E as <- <-.
  assert (P : At (15%N :: self_prot_into_bits Sp_MeshPeeringClose :: rest) 2 rest) by (split; reflexivity).
  apply (gread_elements_inv _ _ _ _ _ P) in G as ->. now split.
Qed.
Lemma rd_close_NP : NoPanic rd_mesh_close.
Proof.
  intros from. unfold rd_mesh_close. pose proof (sp_header_NP Sp_MeshPeeringClose from).
  destruct (rd_self_protected_header _ from); cbn [rbind]; [np|discriminate|congruence].
Qed.
Lemma rd_close_IB : InBounds rd_mesh_close.
Proof.
  intros from x n E. unfold rd_mesh_close in E. destruct (rd_self_protected_header _ from); try discriminate.
  cbn [rbind] in E. rinv E. injection E as _ <-. lia.
Qed.

(** ** Matching *)
Lemma err_cases {A} (x : Res serr A) : x <> Panic -> (forall a, x <> Ok a) -> x = Err BadInput \/ x = Err TooBig \/ x = Err BadOffset.
Proof. destruct x as [a|[]|]; intros H K; auto; [elim (K a); reflexivity|congruence]. Qed.
Lemma raw_action_match : ActionMatch RawAction [].
Proof.
  split; [reflexivity|]. intros b0 rest. exists true. split; [apply rd_raw_action_cons|]. split; [reflexivity|].
  split; [|discriminate]. split; [|reflexivity]. intros _. now exists (b0 :: rest).
Qed.
Lemma vendor_match : ActionMatch RawVendorSpecificAction [127]%N.
Proof.
  split; [reflexivity|]. intros b0 rest. exists (b0 =? 127)%N. split; [apply rd_raw_action_cons|]. split; [|split].
  - cbn [bt_action_matches RawVendorSpecificAction ra_category]. f_equal. now apply category_is.
  - rewrite N.eqb_eq. split; [intros ->; exists rest; reflexivity|]. intros [m E]. now injection E as -> _.
  - intros F. apply err_cases; [apply rd_vendor_action_NP|]. intros [r n] E.
    cbn [bt_read RawVendorSpecificAction] in E. unfold rd_vendor_action in E. rewrite gread_u8_cons in E. cbn [rbind] in E.
    rewrite (category_is b0 Cat_VendorSpecific eq_refl) in E. change (category_into_bits Cat_VendorSpecific) with 127%N in E.
    rewrite F in E. discriminate.
Qed.
Lemma sp_match code a : self_prot_from_bits (self_prot_into_bits code) = code ->
  forall b0 rest, a = mkRA (category_from_bits b0) rest ->
  exists b, self_protected_matches code a = Ok b /\ (b = true <-> exists more, b0 :: rest = [15%N; self_prot_into_bits code] ++ more).
Proof.
  intros C b0 rest ->. unfold self_protected_matches. cbn [ra_category ra_payload].
  rewrite (category_is b0 Cat_SelfProtected eq_refl). change (category_into_bits Cat_SelfProtected) with 15%N.
  destruct (N.eqb_spec b0 15) as [->|N0].
  - destruct rest as [|c rest].
    + exists false. split; [unfold pread, gread, end_bad; destruct strict_end; reflexivity|].
      split; [discriminate|]. intros [m E]. discriminate.
    + exists (c =? self_prot_into_bits code)%N. split.
      * unfold pread. rewrite gread_u8_cons. reflexivity.
      * rewrite N.eqb_eq. split; [intros ->; exists rest; reflexivity|]. intros [m E]. now injection E as -> _.
  - exists false. split; [reflexivity|]. split; [discriminate|]. intros [m E]. now injection E as -> _.
Qed.
Lemma sp_match_type {W R} (t : BodyType W R) code : self_prot_from_bits (self_prot_into_bits code) = code ->
  bt_subtype t = Mg_Action -> bt_action_matches t = self_protected_matches code -> NoPanic (bt_read t) ->
  (forall body, (exists o, rd_self_protected_header code body = Ok o) \/ forall a, bt_read t body <> Ok a) ->
  ActionMatch t [15%N; self_prot_into_bits code].
Proof.
  intros C S M NP RD. split; [exact S|]. intros b0 rest.
  destruct (sp_match code _ C b0 rest eq_refl) as (b & E & B). exists b.
  split; [apply rd_raw_action_cons|]. split; [now rewrite M|]. split; [exact B|].
  intros F. apply err_cases; [apply NP|]. destruct (RD (b0 :: rest)) as [[o K]|K]; [|exact K].
  apply sp_header_inv in K as (_ & more & K); [|exact C].
  assert (X : b = true) by (apply B; exists more; exact K). congruence.
Qed.
Lemma open_match : ActionMatch MeshPeeringOpen [15; 1]%N.
Proof.
  apply (sp_match_type MeshPeeringOpen Sp_MeshPeeringOpen); try reflexivity; [apply rd_open_NP|].
  intros body. cbn [bt_read MeshPeeringOpen]. unfold rd_mesh_open.
  destruct (rd_self_protected_header _ body); [left; eauto|right; discriminate|right; discriminate].
Qed.
Lemma confirm_match : ActionMatch MeshPeeringConfirm [15; 2]%N.
Proof.
  apply (sp_match_type MeshPeeringConfirm Sp_MeshPeeringConfirm); try reflexivity; [apply rd_confirm_NP|].
  intros body. cbn [bt_read MeshPeeringConfirm]. unfold rd_mesh_confirm.
  destruct (rd_self_protected_header _ body); [left; eauto|right; discriminate|right; discriminate].
Qed.
Lemma close_match : ActionMatch MeshPeeringClose [15; 3]%N.
Proof.
  apply (sp_match_type MeshPeeringClose Sp_MeshPeeringClose); try reflexivity; [apply rd_close_NP|].
  intros body. cbn [bt_read MeshPeeringClose]. unfold rd_mesh_close.
  destruct (rd_self_protected_header _ body); [left; eauto|right; discriminate|right; discriminate].
Qed.
(** the OUI test *)
Lemma vendor_oui_match b0 rest oui : length oui = 3 -> exists b,
  is_vendor_and_matches (mkRA (category_from_bits b0) rest) oui = Ok b /\
  (b = true <-> exists more, b0 :: rest = 127%N :: oui ++ more).
Proof.
  intros L. unfold is_vendor_and_matches. cbn [ra_category ra_payload].
  rewrite (category_is b0 Cat_VendorSpecific eq_refl). change (category_into_bits Cat_VendorSpecific) with 127%N.
  destruct (N.eqb_spec b0 127) as [->|N0].
  - destruct (pread (rd_bytes 3) rest 0) as [x|e|] eqn:P; cbn [res_ok rbind].
    + exists (arr_eqb x oui). split; [reflexivity|].
      assert (X : exists q, rest = x ++ q /\ length x = 3).
      { unfold pread in P. destruct (gread (rd_bytes 3) rest 0) as [[y o]| |] eqn:G; try discriminate. injection P as ->.
        apply gread_inv in G as (_ & k & G & _). cbn [skipn] in G. apply rd_bytes_inv in G as (_ & q & -> & Lx). eauto. }
      destruct X as (q & -> & Lx). destruct (arr_eqb_spec x oui) as [->|N1].
      * split; eauto.
      * split; [discriminate|]. intros [m E]. injection E as E. elim N1.
        apply (f_equal (firstn 3)) in E. rewrite !firstn_app_exact in E by auto. exact E.
    + exists false. split; [reflexivity|]. split; [discriminate|]. intros [m E]. injection E as ->.
      unfold pread in P. rewrite (gread_step _ _ _ _ _ _ (At_start _) (rd_bytes_R oui 3 (eq_sym L))) in P; [discriminate|].
      intros ->. discriminate.
    + elim (pread_no_panic _ _ _ (rd_bytes_NP 3) P).
  - exists false. split; [reflexivity|]. split; [discriminate|]. intros [m E]. now injection E as -> _.
Qed.
(** ** Vendor specific action headers in a buffer *)
Lemma append_header_spec oui p rest : length oui = 3 ->
  (4 <= length rest -> append_vendor_action_header oui (p ++ rest) (length p)
     = Ok (p ++ (127%N :: oui) ++ skipn 4 rest, length p + 4)) /\
  (length rest < 4 -> exists e, append_vendor_action_header oui (p ++ rest) (length p) = Err e).
Proof.
  intros L. unfold append_vendor_action_header.
  change (category_into_bits Cat_VendorSpecific) with 127%N.
  assert (F : Forall2 Writes [wr_u8 127; wr_bytes oui] [[127%N]; oui]) by (constructor; [apply wr_u8_small; reflexivity|constructor; [apply wr_bytes_W|constructor]]).
  split; intros H.
  - cbn [wseq_from].
    pose proof (gwrite_state_T (wr_u8 127) [127%N] p (p ++ rest)) as G.
    rewrite skipn_app_exact in G by reflexivity. rewrite G; [|apply wr_bytes_T|discriminate|rewrite app_length; cbn; lia].
    cbn [rbind]. 
    pose proof (gwrite_state_T (wr_bytes oui) oui (p ++ [127%N]) (p ++ rest)) as G2.
    rewrite G2; [|apply wr_bytes_T|intros ->; discriminate|rewrite !app_length; cbn; lia].
    cbn [rbind]. do 2 f_equal.
    + rewrite <- !app_assoc. cbn [app]. do 3 f_equal.
      replace (length (p ++ 127%N :: oui)) with (length p + 4) by (rewrite app_length; cbn [length]; lia).
      rewrite <- skipn_skipn_add, skipn_app_exact by reflexivity. reflexivity.
    + rewrite !app_length, L. cbn. lia.
  - pose proof (wseq_from_any _ _ F p (p ++ rest)) as G. rewrite skipn_app_exact in G by reflexivity.
    destruct G as [[G _]|G]; [rewrite app_length; lia| |exact G].
    cbn [concat] in G. rewrite app_nil_r, !app_length in G. cbn [length] in G. lia.
Qed.
Lemma strip_header_spec oui p rest : length oui = 3 ->
  match strip_and_check_vendor_action_header oui (p ++ rest) (length p) with
  | Ok o => o = length p + 4 /\ exists more, rest = 127%N :: oui ++ more
  | Err _ => forall more, rest <> 127%N :: oui ++ more
  | Panic => False
  end.
Proof.
  intros L. unfold strip_and_check_vendor_action_header.
  destruct rest as [|b rest].
  - rewrite app_nil_r. unfold gread at 1. destruct (end_bad (length p) (length p)); cbn [rbind]; [discriminate|].
    rewrite skipn_all. cbn [rd_u8 rbind]. discriminate.
  - assert (A : At (p ++ [b] ++ rest) (length p) ([b] ++ rest)) by now apply At_app.
    change (p ++ b :: rest) with (p ++ [b] ++ rest). rstep A. cbn [length] in A |- *.
    rewrite (category_is b Cat_VendorSpecific eq_refl). change (category_into_bits Cat_VendorSpecific) with 127%N.
    destruct (N.eqb_spec b 127) as [->|N0]; cbn [negb]; [|intros more E; now injection E as -> _].
    destruct (gread (rd_bytes 3) _ (length p + 1)) as [[x o]|e|] eqn:G; cbn [rbind].
    + apply gread_inv in G as (_ & k & G & ->). destruct A as [A _]. rewrite A in G.
      apply rd_bytes_inv in G as (-> & q & -> & Lx). destruct (arr_eqb_spec x oui) as [->|N1]; cbn [negb].
      * split; [lia|]. exists q. reflexivity.
      * intros more E. injection E as E. elim N1. apply (f_equal (firstn 3)) in E. rewrite !firstn_app_exact in E by auto. exact E.
    + intros more E. injection E as ->.
      rewrite (gread_step _ _ _ _ _ _ A (rd_bytes_R oui 3 (eq_sym L))) in G; [discriminate|]. intros ->. discriminate.
    + elim (gread_no_panic _ _ _ (rd_bytes_NP 3) G).
Qed.
Lemma append_then_strip oui p rest : length oui = 3 -> 4 <= length rest -> exists buf,
  append_vendor_action_header oui (p ++ rest) (length p) = Ok (buf, length p + 4) /\
  strip_and_check_vendor_action_header oui buf (length p) = Ok (length p + 4).
Proof.
  intros L H. destruct (append_header_spec oui p rest L) as [A _]. eexists. split; [now apply A|].
  pose proof (strip_header_spec oui p ((127%N :: oui) ++ skipn 4 rest) L) as S.
  destruct (strip_and_check_vendor_action_header _ _ _) as [o| |].
  - now destruct S as [-> _].
  - now elim (S (skipn 4 rest)).
  - destruct S.
Qed.
Lemma header_length oui p rest : length oui = 3 ->
  ((exists buf o, append_vendor_action_header oui (p ++ rest) (length p) = Ok (buf, o)) <-> VENDOR_SPECIFIC_ACTION_HEADER_LENGTH <= length rest) /\
  (forall buf o, append_vendor_action_header oui (p ++ rest) (length p) = Ok (buf, o) -> o = length p + VENDOR_SPECIFIC_ACTION_HEADER_LENGTH) /\
  (forall o, strip_and_check_vendor_action_header oui (p ++ rest) (length p) = Ok o -> o = length p + VENDOR_SPECIFIC_ACTION_HEADER_LENGTH).
Proof.
  intros L. destruct (append_header_spec oui p rest L) as [A B]. pose proof (strip_header_spec oui p rest L) as S.
  change VENDOR_SPECIFIC_ACTION_HEADER_LENGTH with 4. split; [split|split].
  - intros (buf & o & E). destruct (le_lt_dec 4 (length rest)) as [H|H]; [exact H|]. destruct (B H) as [e E']. congruence.
  - intros H. do 2 eexists. exact (A H).
  - intros buf o E. destruct (le_lt_dec 4 (length rest)) as [H|H]; [rewrite (A H) in E; congruence|]. destruct (B H) as [e E']. congruence.
  - intros o E. rewrite E in S. apply S.
Qed.
End Facts.
