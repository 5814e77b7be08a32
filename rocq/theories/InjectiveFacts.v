(** Proofs: different values are written as different bytes. *)
From Verif Require Import Base BaseFacts SpecBase Bits Layouts BitsFacts Enums EnumsFacts Common CommonFacts SpecCommon Crc CrcFacts Elements SpecElements ElementsFacts
  ElementTypes SpecElementTypes ElementTypesFacts StepsFacts Mgmt SpecMgmt MgmtFacts MgmtFacts2 MgmtFacts3 MgmtFacts4 MgmtFacts5 SpecAccept AcceptFacts SpecStable StableFacts
  Data SpecData DataFacts DataFacts2 Control Generic SpecGeneric GenericFacts GenericFacts2 Eapol SpecEapol EapolFacts ForwardFacts Rsn SpecRsn.

(** a reading library that accepts empty reads at the end, on a little endian machine *)
Definition plain_cfg : Cfg := {| strict_end := false; native_le := true; overflow_checks := true |}.

Section Facts.
Context {cfg : Cfg}.
Lemma mgmt_injective {W R} (t : forall cfg : Cfg, BodyType W R) subtype ok fixed cont conv (empty_ok : Prop) (back : R -> W) :
  (forall cfg, MgmtRoundTrip (t cfg) subtype ok fixed cont conv empty_ok) ->
  (forall w es, ok w -> ok (back (conv w es)) /\ fixed (back (conv w es)) = fixed w /\ conv (back (conv w es)) es = conv w es /\
     @Writes plain_cfg (c_write (cont (back (conv w es)))) es) ->
  MgmtInjective (t cfg) ok cont conv.
Proof.
  intros RT B fcs frame h1 h2 w1 w2 es1 es2 H1 H2 O1 O2 F1 F2 C1 C2 W1 W2.
  destruct (RT cfg h1 w1 es1 fcs H1 O1 F1 C1) as (X1 & _). destruct (RT cfg h2 w2 es2 fcs H2 O2 F2 C2) as (X2 & _).
  pose proof (writes_unique _ _ _ W1 X1) as E1. pose proof (writes_unique _ _ _ W2 X2) as E2. clear X1 X2 W1 W2 C1 C2.
  destruct (B w1 es1 O1) as (O1' & S1 & V1 & C1). destruct (B w2 es2 O2) as (O2' & S2 & V2 & C2).
  destruct (RT plain_cfg h1 _ es1 fcs H1 O1' F1 C1) as (_ & _ & R1). destruct (RT plain_cfg h2 _ es2 fcs H2 O2' F2 C2) as (_ & _ & R2).
  rewrite S1, V1 in R1. rewrite S2, V2 in R2. cbn zeta in E1, E2.
  specialize (R1 (or_intror (or_introl eq_refl))). specialize (R2 (or_intror (or_introl eq_refl))).
  rewrite <- E1 in R1. rewrite <- E2 in R2. rewrite R1 in R2. injection R2 as -> ->. now split.
Qed.
Local Ltac inj rt back := apply (mgmt_injective (fun cfg => _) _ _ _ _ _ _ back rt);
  intros w es Hw; split; [exact Hw|]; split; [reflexivity|]; split; [reflexivity|].
Lemma beacon_inj : MgmtInjective Beacon ok_beacon bb_elements with_beacon.
Proof. inj (@beacon_rt) (fun r => with_beacon r (@c_read_elements plain_cfg (bb_elements r))). apply c_read_elements_W. Qed.
Lemma probe_resp_inj : MgmtInjective ProbeResponse ok_beacon bb_elements with_beacon.
Proof. inj (@probe_resp_rt) (fun r => with_beacon r (@c_read_elements plain_cfg (bb_elements r))). apply c_read_elements_W. Qed.
Lemma probe_inj : MgmtInjective ProbeRequest ok_any pq_elements with_probe.
Proof. inj (@probe_rt) (fun r => with_probe r (@c_read_elements plain_cfg (pq_elements r))). apply c_read_elements_W. Qed.
Lemma auth_inj : MgmtInjective Authentication ok_auth au_elements with_auth.
Proof. inj (@auth_rt) (fun r => with_auth r (@c_read_elements plain_cfg (au_elements r))). apply c_read_elements_W. Qed.
Lemma assoc_req_inj : MgmtInjective AssociationRequest ok_assoc_req aq_elements with_assoc_req.
Proof. inj (@assoc_req_rt) (fun r => with_assoc_req r (@c_read_elements plain_cfg (aq_elements r))). apply c_read_elements_W. Qed.
Lemma assoc_resp_inj : MgmtInjective AssociationResponse ok_assoc_resp ar_elements with_assoc_resp.
Proof. inj (@assoc_resp_rt) (fun r => with_assoc_resp r (@c_read_elements plain_cfg (ar_elements r))). apply c_read_elements_W. Qed.
Lemma deauth_inj : MgmtInjective Deauthentication ok_reason rb_elements with_reason.
Proof. inj (@deauth_rt) (fun r => with_reason r (@c_read_elements plain_cfg (rb_elements r))). apply c_read_elements_W. Qed.
Lemma disassoc_inj : MgmtInjective Disassociation ok_reason rb_elements with_reason.
Proof. inj (@disassoc_rt) (fun r => with_reason r (@c_read_elements plain_cfg (rb_elements r))). apply c_read_elements_W. Qed.
Lemma open_inj : MgmtInjective MeshPeeringOpen ok_open mo_elements with_open.
Proof. inj (@open_rt) (fun r => with_open r (@c_read_elements plain_cfg (mo_elements r))). apply c_read_elements_W. Qed.
Lemma confirm_inj : MgmtInjective MeshPeeringConfirm ok_confirm mc_elements with_confirm.
Proof. inj (@confirm_rt) (fun r => with_confirm r (@c_read_elements plain_cfg (mc_elements r))). apply c_read_elements_W. Qed.
Lemma close_inj : MgmtInjective MeshPeeringClose ok_any ml_elements with_close.
Proof. inj (@close_rt) (fun r => with_close r (@c_read_elements plain_cfg (ml_elements r))). apply c_read_elements_W. Qed.
Lemma raw_action_inj : MgmtInjective RawAction ok_raw_action (fun b => c_bytes (ra_payload b)) with_raw_action.
Proof. inj (@raw_action_rt) (fun r : RawActionBody => r). apply c_bytes_T. Qed.
Lemma vendor_inj : MgmtInjective RawVendorSpecificAction ok_vendor va_payload with_vendor.
Proof. inj (@vendor_rt) (fun r => with_vendor r (c_bytes (va_payload r))). apply c_bytes_T. Qed.
Lemma data_inj fcs frame h1 h2 p1 p2 b1 b2 : ok_data_header h1 -> ok_data_header h2 -> payload_ok h1 p1 b1 -> payload_ok h2 p2 b2 ->
  Writes (wr_data (h1, p1) fcs) frame -> Writes (wr_data (h2, p2) fcs) frame -> h1 = h2 /\ b1 = b2.
Proof.
  intros H1 H2 P1 P2 W1 W2.
  pose proof (writes_unique _ _ _ W1 (proj1 (wr_data_W h1 p1 b1 fcs H1 P1))) as E1.
  pose proof (writes_unique _ _ _ W2 (proj1 (wr_data_W h2 p2 b2 fcs H2 P2))) as E2. rewrite E1 in E2. clear E1 W1 W2.
  assert (Q : forall h p b, payload_ok h p b -> exists p', @payload_ok plain_cfg h p' b /\
    match p' with Some _ => std_has_payload (subtype_number h) = true | None => std_has_payload (subtype_number h) = false /\ b = [] end).
  { intros h [c|] b P; [exists (Some (c_bytes b))|exists None]; cbn [payload_ok] in *; [|tauto].
    split; [|tauto]. split; [tauto|]. split; [tauto|apply c_bytes_T]. }
  destruct (Q h1 p1 b1 P1) as (q1 & Q1 & S1). destruct (Q h2 p2 b2 P2) as (q2 & Q2 & S2).
  pose proof (@data_round_trip plain_cfg h1 q1 b1 fcs H1 Q1) as (_ & _ & R1). specialize (R1 eq_refl).
  pose proof (@data_round_trip plain_cfg h2 q2 b2 fcs H2 Q2) as (_ & _ & R2). specialize (R2 eq_refl).
  cbn zeta in R1, R2. rewrite E2, R2 in R1. injection R1 as Eh Ep. subst h2.
  split; [reflexivity|]. destruct q1, q2; try congruence. destruct S1, S2. congruence.
Qed.
Lemma elements_inj l1 l2 : Forall fits l1 -> Forall fits l2 -> enc_elements l1 = enc_elements l2 -> l1 = l2.
Proof.
  intros F1 F2 E.
  pose proof (@raw_elements_enc plain_cfg l1 [] F1 (or_introl eq_refl) (or_introl I)) as R1.
  pose proof (@raw_elements_enc plain_cfg l2 [] F2 (or_introl eq_refl) (or_introl I)) as R2.
  rewrite E, R2 in R1. now injection R1.
Qed.
Lemma chain_inj c1 c2 raws1 raws2 frame : Forall2 item_element (chain_items c1) raws1 -> Forall2 item_element (chain_items c2) raws2 ->
  Forall wf_item (chain_items c1) -> Forall wf_item (chain_items c2) -> Forall fits raws1 -> Forall fits raws2 ->
  Writes (wr_chain c1) frame -> Writes (wr_chain c2) frame -> raws1 = raws2.
Proof.
  intros I1 I2 V1 V2 F1 F2 W1 W2. apply elements_inj; auto.
  rewrite <- (writes_unique _ _ _ W1 (wr_chain_W c1 raws1 I1 V1 F1)). exact (writes_unique _ _ _ W2 (wr_chain_W c2 raws2 I2 V2 F2)).
Qed.
Lemma ctrl_inj c1 c2 frame (x : N) : ok_ctrl c1 -> ok_ctrl c2 -> @ctrl_fcf _ serr c1 = Ok x -> @ctrl_fcf _ serr c2 = Ok x ->
  Writes (wr_ctrl c1) frame -> Writes (wr_ctrl c2) frame -> c1 = c2.
Proof.
  intros H1 H2 X1 X2 W1 W2.
  destruct (ctrl_round_trip c1 H1) as (A1 & _ & R1). destruct (ctrl_round_trip c2 H2) as (A2 & _ & R2).
  pose proof (writes_unique _ _ _ W1 A1) as E1. pose proof (writes_unique _ _ _ W2 A2) as E2. rewrite E1 in E2.
  destruct (ctrl_fcf_spec c1 H1) as (x1 & Y1 & _ & _ & T1 & G1). destruct (ctrl_fcf_spec c2 H2) as (x2 & Y2 & _ & _ & T2 & G2).
  rewrite X1 in Y1. injection Y1 as <-. rewrite X2 in Y2. injection Y2 as <-. rewrite T1 in T2. rewrite G1 in G2. injection T2 as T2.
  rewrite <- T2, <- G2, <- E2, R1 in R2. now injection R2.
Qed.
Lemma key_frame_inj akm (k1 k2 : KeyFrame Container) d1 d2 frame : ok_key_frame (with_data k1 d1) -> ok_key_frame (with_data k2 d2) ->
  key_mic_len akm = Some (length (key_mic k1)) -> key_mic_len akm = Some (length (key_mic k2)) ->
  Writes (c_write (key_data k1)) d1 -> Writes (c_write (key_data k2)) d2 ->
  Writes (wr_key_frame k1) frame -> Writes (wr_key_frame k2) frame -> with_data k1 d1 = with_data k2 d2.
Proof.
  intros H1 H2 L1 L2 D1 D2 W1 W2.
  pose proof (writes_unique _ _ _ W1 (wr_key_frame_W k1 d1 D1)) as E1. pose proof (writes_unique _ _ _ W2 (wr_key_frame_W k2 d2 D2)) as E2.
  rewrite E1 in E2.
  pose proof (@rd_key_frame_R plain_cfg akm _ [] H1 L1 (or_introl eq_refl)) as R1.
  pose proof (@rd_key_frame_R plain_cfg akm _ [] H2 L2 (or_introl eq_refl)) as R2.
  rewrite E2, R2 in R1. congruence.
Qed.
(** ** Data frames *)
Lemma data_stable fcs bs h (p : option bytes) n : wf_bytes bs -> native_le = true -> rd_data fcs bs = Ok ((h, p), n) ->
  exists b0 rest tail,
    let frame := enc_frame fcs ((b0 - b0 mod 4)%N :: rest) in
    bs = enc_frame fcs (b0 :: rest ++ tail) /\ (p <> None -> tail = []) /\
    Writes (wr_data (h, match p with Some b => Some (c_bytes b) | None => None end) fcs) frame /\
    pread (rd_data fcs) frame 0 = Ok (h, p).
Proof.
  intros W NL R.
  assert (X : exists f, bs = enc_frame fcs f /\ rd_data false f = Ok ((h, p), n) /\ wf_bytes f).
  { destruct fcs.
    - rewrite rd_data_fcs in R. destruct (strip_and_validate_fcs bs) as [f| |] eqn:S; cbn [rbind] in R; try discriminate.
      apply (strip_fcs_spec bs W) in S. exists f. split; [exact S|]. split; [exact R|]. subst bs. now apply wf_bytes_app in W.
    - exists bs. now split. }
  destruct X as (f & Eb & Rf & Wf). pose proof (rd_data_spec f Wf NL) as S. rewrite Rf in S.
  destruct S as (b0 & body & H & B0 & T & SN & Ef & En & Ep).
  assert (Wb : wf_bytes body).
  { rewrite Ef in Wf. apply wf_bytes_app in Wf as [_ Wf]. now apply wf_bytes_app in Wf as [_ Wf]. }
  assert (V : enc_fcf 2 (subtype_number h) (dh_flags h) = [(b0 - b0 mod 4)%N; dh_flags h]).
  { unfold enc_fcf. rewrite SN. f_equal. clear - B0 T. assert (b0 = 16 * (b0 / 16) + b0 mod 16)%N by (apply N.div_mod'). lia. }
  destruct (std_has_payload (subtype_number h)) eqn:SP; subst p.
  - assert (P : payload_ok h (Some (c_bytes body)) body) by (cbn; split; [exact SP|]; split; [exact Wb|apply c_bytes_T]).
    destruct (data_round_trip h (Some (c_bytes body)) body fcs H P) as (A & _ & B). specialize (B NL). unfold enc_data in A, B. rewrite V in A, B.
    exists b0, (dh_flags h :: enc_data_header h ++ body), []. intros frame.
    split; [rewrite app_nil_r, Eb, Ef; reflexivity|]. split; [reflexivity|]. split; [exact A|exact B].
  - assert (P : payload_ok h None []) by (now split).
    destruct (data_round_trip h None [] fcs H P) as (A & _ & B). specialize (B NL). unfold enc_data in A, B. rewrite V in A, B.
    rewrite app_nil_r in A, B.
    exists b0, (dh_flags h :: enc_data_header h), body. intros frame.
    split; [rewrite Eb, Ef; cbn [app]; reflexivity|]. split; [congruence|]. split; [exact A|exact B].
Qed.
End Facts.
Lemma data_unstable {cfg : Cfg} : native_le = false -> exists bs h p n buf m h' p',
  wf_bytes bs /\ rd_data false bs = Ok ((h, Some p), n) /\ wr_data (h, Some (c_bytes p)) false (repeat 0%N 64) = Ok (buf, m) /\
  m = length bs /\ pread (rd_data false) (firstn m buf) 0 = Ok (h', p') /\ dh_duration h' <> dh_duration h /\ dh_seq h' <> dh_seq h.
Proof.
  intros NL. exists [8; 2; 44; 1; 1; 1; 1; 1; 1; 1; 2; 2; 2; 2; 2; 2; 3; 3; 3; 3; 3; 3; 16; 32; 9; 9]%N.
  destruct cfg as [[] [] []]; try discriminate NL; do 7 eexists; (split; [apply wf_bytesb_spec; reflexivity|]);
    (split; [vm_compute; reflexivity|]); (split; [vm_compute; reflexivity|]); (split; [reflexivity|]);
    (split; [vm_compute; reflexivity|]); split; vm_compute; discriminate.
Qed.
