(** Proofs: reading, writing and reading again. *)
From Verif Require Import Base BaseFacts SpecBase Bits Layouts BitsFacts Enums EnumsFacts Common CommonFacts SpecCommon Crc CrcFacts Elements SpecElements ElementsFacts
  ElementTypes SpecElementTypes ElementTypesFacts StepsFacts Mgmt SpecMgmt MgmtFacts MgmtFacts2 MgmtFacts3 MgmtFacts4 MgmtFacts5 SpecAccept AcceptFacts SpecStable.

Section Facts.
Context {cfg : Cfg}.
Lemma mgmt_stable {W R} (t : BodyType W R) subtype ok fixed cont conv empty_ok back canonical :
  MgmtRoundTrip t subtype ok fixed cont conv empty_ok ->
  (forall body r m, wf_bytes body -> bt_read t body = Ok (r, m) -> exists es, ok (back r) /\ wf_bytes es /\
    Writes (c_write (cont (back r))) es /\ conv (back r) es = r /\ (empty_ok \/ end_ok es) /\
    canonical body = fixed (back r) ++ es /\ length (canonical body) = length body) ->
  MgmtStable t subtype back canonical.
Proof.
  intros RT B fcs bs h r n W0 E. destruct (rd_mgmt_inv t fcs bs h r n W0 E) as (b0 & body & m & _ & _ & Wb & Hh & Eb & G & _).
  destruct (B body r m Wb G) as (es & Ok1 & We & Wr & Cv & En & Cn & L).
  destruct (RT h (back r) es fcs Hh Ok1 We Wr) as (A & _ & C). specialize (C En). rewrite Cv in C.
  exists b0, (mh_flags h :: enc_mgmt_header h), body. intros frame.
  assert (F : frame = enc_frame fcs (enc_mgmt subtype h (fixed (back r) ++ es))).
  { unfold frame. rewrite Cn. unfold enc_mgmt, enc_fcf. reflexivity. }
  split; [exact Eb|]. split; [reflexivity|]. split; [|rewrite F; now split].
  unfold frame. rewrite Eb. destruct fcs; cbn [enc_frame]; repeat (progress (cbn [app length]) || rewrite app_length); rewrite ?le_bytes_length, L; lia.
Qed.
Definition as_is (body : bytes) : bytes := body.

Lemma end_of k body (a es : bytes) : fixed_fields k body -> body = a ++ es -> length a = k -> end_ok es.
Proof. intros [_ K] -> L. now rewrite skipn_app_exact in K. Qed.
Ltac plain rt inv acc := eapply mgmt_stable; [exact rt|]; intros body r m Wb G; destruct (inv body r m Wb G I) as [Hr E];
  assert (We : wf_bytes body) by exact Wb; rewrite E in We; apply wf_bytes_app in We as [_ We];
  eexists; split; [exact Hr|]; split; [exact We|]; split; [apply c_read_elements_W|]; split; [destruct r; reflexivity|];
  split; [right; eapply end_of; [apply acc; eexists _, _; exact G|exact E|reflexivity]|]; split; [exact E|reflexivity].
Lemma beacon_stable : MgmtStable Beacon 8 (fun r => with_beacon r (c_read_elements (bb_elements r))) as_is.
Proof. plain beacon_rt rd_beacon_inv beacon_body_accepted. Qed.
Lemma probe_resp_stable : MgmtStable ProbeResponse 5 (fun r => with_beacon r (c_read_elements (bb_elements r))) as_is.
Proof. plain probe_resp_rt rd_beacon_inv beacon_body_accepted. Qed.
Lemma auth_stable : MgmtStable Authentication 11 (fun r => with_auth r (c_read_elements (au_elements r))) as_is.
Proof. plain auth_rt rd_auth_inv auth_body_accepted. Qed.
Lemma assoc_req_stable : MgmtStable AssociationRequest 0 (fun r => with_assoc_req r (c_read_elements (aq_elements r))) as_is.
Proof. plain assoc_req_rt rd_assoc_req_inv assoc_req_body_accepted. Qed.
Lemma deauth_stable : MgmtStable Deauthentication 12 (fun r => with_reason r (c_read_elements (rb_elements r))) as_is.
Proof. plain deauth_rt rd_reason_inv reason_body_accepted. Qed.
Lemma disassoc_stable : MgmtStable Disassociation 10 (fun r => with_reason r (c_read_elements (rb_elements r))) as_is.
Proof. plain disassoc_rt rd_reason_inv reason_body_accepted. Qed.
Lemma probe_stable : MgmtStable ProbeRequest 4 (fun r => with_probe r (c_read_elements (pq_elements r))) as_is.
Proof. plain probe_rt rd_probe_inv probe_req_body_accepted. Qed.
Lemma open_stable : MgmtStable MeshPeeringOpen 13 (fun r => with_open r (c_read_elements (mo_elements r))) as_is.
Proof. plain open_rt rd_open_inv open_body_accepted. Qed.
Lemma close_stable : MgmtStable MeshPeeringClose 13 (fun r => with_close r (c_read_elements (ml_elements r))) as_is.
Proof. plain close_rt rd_close_inv close_body_accepted. Qed.
Lemma raw_action_stable : MgmtStable RawAction 13 (fun r => r) as_is.
Proof.
  eapply mgmt_stable; [exact raw_action_rt|]. intros body r m Wb G. destruct (rd_raw_action_inv body r m Wb G I) as [Hr E].
  assert (We : wf_bytes body) by exact Wb. rewrite E in We. apply wf_bytes_app in We as [_ We].
  eexists. split; [exact Hr|]. split; [exact We|]. split; [apply c_bytes_T|]. split; [destruct r; reflexivity|].
  split; [now left|]. split; [exact E|reflexivity].
Qed.
Lemma vendor_stable : MgmtStable RawVendorSpecificAction 13 (fun r => with_vendor r (c_bytes (va_payload r))) as_is.
Proof.
  eapply mgmt_stable; [exact vendor_rt|]. intros body r m Wb G. destruct (rd_vendor_action_inv body r m Wb G I) as [Hr E].
  assert (We : wf_bytes body) by exact Wb. rewrite E in We. apply wf_bytes_app in We as [_ We].
  eexists. split; [exact Hr|]. split; [exact We|]. split; [apply c_bytes_T|]. split; [destruct r; reflexivity|].
  split; [now left|]. split; [exact E|reflexivity].
Qed.
(** association IDs: the same frame with the top bits set *)
Lemma canonical_aid_at p c rest : length p = 4 -> (c < 65536)%N ->
  aid_field (p ++ le_bytes 2 c ++ rest) = c /\
  canonical_aid (p ++ le_bytes 2 c ++ rest) = p ++ le_bytes 2 (if (c =? 0)%N then 0 else 49152 + c mod 16384)%N ++ rest.
Proof.
  intros L H. assert (A : aid_field (p ++ le_bytes 2 c ++ rest) = c).
  { unfold aid_field. rewrite skipn_app_exact by (symmetry; exact L). rewrite firstn_app_exact by (symmetry; apply le_bytes_length).
    now apply (le_val_bytes_small 2). }
  split; [exact A|]. unfold canonical_aid. rewrite A. rewrite firstn_app_exact by (symmetry; exact L). do 2 f_equal.
  rewrite app_assoc. apply skipn_app_exact. now rewrite app_length, le_bytes_length, L.
Qed.
Lemma aid_top c : (c < 65536)%N -> let c' := (if (c =? 0)%N then 0 else 49152 + c mod 16384)%N in
  (c' < 65536)%N /\ (c' = 0%N \/ (49152 <= c')%N) /\ (c' =? 0)%N = (c =? 0)%N /\ (c <> 0%N -> aid_new_checked c' = aid_new_checked c).
Proof.
  intros H. destruct (N.eqb_spec c 0) as [->|Z]; cbn zeta; [repeat split; auto; lia|].
  assert (M : (c mod 16384 < 16384)%N) by (apply N.mod_lt; discriminate).
  split; [lia|]. split; [right; lia|]. split; [apply N.eqb_neq; lia|]. intros _. rewrite !aid_checked_cases.
  replace ((49152 + c mod 16384) mod 16384)%N with (c mod 16384)%N; [reflexivity|].
  rewrite N.add_mod by discriminate. change (49152 mod 16384)%N with 0%N. rewrite N.add_0_l, !N.mod_mod by discriminate. reflexivity.
Qed.
Lemma gread_elements_at (p q rest : bytes) : length p = length q ->
  gread rd_elements (p ++ rest) (length p) = gread rd_elements (q ++ rest) (length p).
Proof.
  intros L. unfold gread. rewrite !app_length, <- L. rewrite !skipn_app_exact by (reflexivity || exact L). reflexivity.
Qed.
Lemma assoc_resp_canonical body r m : wf_bytes body -> rd_assoc_resp body = Ok (r, m) ->
  wf_bytes (canonical_aid body) /\ length (canonical_aid body) = length body /\ canon_assoc_resp (canonical_aid body) /\
  rd_assoc_resp (canonical_aid body) = Ok (r, m).
Proof.
  intros W E. assert (L : 6 <= length body) by (apply (proj1 (assoc_resp_body_accepted body)); eauto).
  revert E. destruct (split_bytes 4 body W) as (p & r1 & Lp & Wp & -> & W1 & L1); [lia|]. rewrite app_length in L.
  destruct (split_le 2 r1 W1) as (c & r2 & Hc & -> & W2 & L2); [lia|].
  destruct (canonical_aid_at p c r2 Lp Hc) as [_ ->]. destruct (aid_top c Hc) as (T1 & T2 & T3 & T4).
  set (c' := (if (c =? 0)%N then 0 else 49152 + c mod 16384)%N) in *.
  intros E. split; [|split; [|split]].
  - apply wf_bytes_app. split; [exact Wp|]. apply wf_bytes_app. split; [apply le_bytes_wf|exact W2].
  - rewrite !app_length, !le_bytes_length. reflexivity.
  - unfold canon_assoc_resp. now rewrite (proj1 (canonical_aid_at p c' r2 Lp T1)).
  - rewrite <- E. unfold rd_assoc_resp.
    do 2 (rewrite !gread_le_ok by (rewrite ?app_length, ?le_bytes_length; lia); cbn [rbind Nat.add]).
    rewrite !gread_le_ok by (rewrite ?app_length, ?le_bytes_length; lia); cbn [rbind Nat.add].
    change (le_val (firstn 2 (skipn 4 (p ++ le_bytes 2 c' ++ r2)))) with (aid_field (p ++ le_bytes 2 c' ++ r2)).
    change (le_val (firstn 2 (skipn 4 (p ++ le_bytes 2 c ++ r2)))) with (aid_field (p ++ le_bytes 2 c ++ r2)).
    rewrite (proj1 (canonical_aid_at p c' r2 Lp T1)), (proj1 (canonical_aid_at p c r2 Lp Hc)), T3.
    assert (F : forall d k, k + 2 <= 4 -> firstn 2 (skipn k (p ++ le_bytes 2 d ++ r2)) = firstn 2 (skipn k p)).
    { intros d k K. rewrite skipn_more by lia. apply firstn_more. rewrite skipn_length. lia. }
    rewrite !F by lia. clear F.
    assert (G : gread rd_elements (p ++ le_bytes 2 c' ++ r2) 6 = gread rd_elements (p ++ le_bytes 2 c ++ r2) 6).
    { rewrite !app_assoc. pose proof (gread_elements_at (p ++ le_bytes 2 c') (p ++ le_bytes 2 c) r2) as G.
      rewrite !app_length, !le_bytes_length, Lp in G. now apply G. }
    destruct (N.eqb_spec c 0) as [Z|Z]; [|rewrite (T4 Z); destruct (aid_new_checked c)]; cbn [rbind]; now rewrite ?G.
Qed.
Lemma assoc_resp_stable : MgmtStable AssociationResponse 1 (fun r => with_assoc_resp r (c_read_elements (ar_elements r))) canonical_aid.
Proof.
  eapply mgmt_stable; [exact assoc_resp_rt|]. intros body r m Wb G.
  destruct (assoc_resp_canonical body r m Wb G) as (Wc & L & C & G').
  destruct (rd_assoc_resp_inv _ r m Wc G' C) as [Hr E].
  assert (We : wf_bytes (canonical_aid body)) by exact Wc. rewrite E in We. apply wf_bytes_app in We as [_ We].
  eexists. split; [exact Hr|]. split; [exact We|]. split; [apply c_read_elements_W|]. split; [destruct r; reflexivity|].
  split; [right; eapply (end_of 6); [apply (assoc_resp_body_accepted (canonical_aid body)); eexists _, _; exact G'|exact E|reflexivity]|].
  split; [exact E|exact L].
Qed.
Lemma confirm_canonical body r m : wf_bytes body -> rd_mesh_confirm body = Ok (r, m) ->
  wf_bytes (canonical_aid body) /\ length (canonical_aid body) = length body /\ canon_confirm (canonical_aid body) /\
  rd_mesh_confirm (canonical_aid body) = Ok (r, m).
Proof.
  intros W E. assert (A : fixed_fields 6 body /\ self_protected 2 body /\ accepted_aid (aid_field body)) by (apply confirm_body_accepted; eauto).
  destruct A as ([L _] & SP & AA). revert E SP AA.
  destruct (split_bytes 4 body W) as (p & r1 & Lp & Wp & -> & W1 & L1); [lia|]. rewrite app_length in L.
  destruct (split_le 2 r1 W1) as (c & r2 & Hc & -> & W2 & L2); [lia|].
  destruct (canonical_aid_at p c r2 Lp Hc) as [-> ->]. destruct (aid_top c Hc) as (T1 & T2 & T3 & T4).
  set (c' := (if (c =? 0)%N then 0 else 49152 + c mod 16384)%N) in *.
  intros E SP AA. assert (Z : c <> 0%N) by (intros ->; unfold accepted_aid in AA; cbn in AA; lia).
  split; [|split; [|split]].
  - apply wf_bytes_app. split; [exact Wp|]. apply wf_bytes_app. split; [apply le_bytes_wf|exact W2].
  - rewrite !app_length, !le_bytes_length. reflexivity.
  - unfold canon_confirm. rewrite (proj1 (canonical_aid_at p c' r2 Lp T1)). destruct T2 as [T2|T2]; [|exact T2].
    exfalso. rewrite T2 in T3. symmetry in T3. apply Z. now apply N.eqb_eq.
  - rewrite <- E. unfold rd_mesh_confirm.
    assert (SP' : self_protected 2 (p ++ le_bytes 2 c' ++ r2)).
    { destruct p as [|x [|y p]]; cbn [length] in Lp; try lia. exact SP. }
    rewrite !(sp_body Sp_MeshPeeringConfirm) by (reflexivity || (rewrite !app_length; lia) || assumption). cbn [rbind].
    rewrite !gread_le_ok by (rewrite ?app_length, ?le_bytes_length; lia); cbn [rbind Nat.add].
    rewrite !gread_le_ok by (rewrite ?app_length, ?le_bytes_length; lia); cbn [rbind Nat.add].
    change (le_val (firstn 2 (skipn 4 (p ++ le_bytes 2 c' ++ r2)))) with (aid_field (p ++ le_bytes 2 c' ++ r2)).
    change (le_val (firstn 2 (skipn 4 (p ++ le_bytes 2 c ++ r2)))) with (aid_field (p ++ le_bytes 2 c ++ r2)).
    rewrite (proj1 (canonical_aid_at p c' r2 Lp T1)), (proj1 (canonical_aid_at p c r2 Lp Hc)).
    assert (F : forall d k, k + 2 <= 4 -> firstn 2 (skipn k (p ++ le_bytes 2 d ++ r2)) = firstn 2 (skipn k p)).
    { intros d k K. rewrite skipn_more by lia. apply firstn_more. rewrite skipn_length. lia. }
    rewrite !F by lia. clear F.
    assert (G : gread rd_elements (p ++ le_bytes 2 c' ++ r2) 6 = gread rd_elements (p ++ le_bytes 2 c ++ r2) 6).
    { rewrite !app_assoc. pose proof (gread_elements_at (p ++ le_bytes 2 c') (p ++ le_bytes 2 c) r2) as G.
      rewrite !app_length, !le_bytes_length, Lp in G. now apply G. }
    rewrite (T4 Z). destruct (aid_new_checked c); cbn [rbind]; now rewrite ?G.
Qed.
Lemma confirm_stable : MgmtStable MeshPeeringConfirm 13 (fun r => with_confirm r (c_read_elements (mc_elements r))) canonical_aid.
Proof.
  eapply mgmt_stable; [exact confirm_rt|]. intros body r m Wb G.
  destruct (confirm_canonical body r m Wb G) as (Wc & L & C & G').
  destruct (rd_confirm_inv _ r m Wc G' C) as [Hr E].
  assert (We : wf_bytes (canonical_aid body)) by exact Wc. rewrite E in We. apply wf_bytes_app in We as [_ We].
  eexists. split; [exact Hr|]. split; [exact We|]. split; [apply c_read_elements_W|]. split; [destruct r; reflexivity|].
  split; [right; eapply (end_of 6); [apply (confirm_body_accepted (canonical_aid body)); eexists _, _; exact G'|exact E|reflexivity]|].
  split; [exact E|exact L].
Qed.
End Facts.
