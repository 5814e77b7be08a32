(** Proofs about the reservation of the medium. *)
From Verif Require Import Base SpecBase BaseFacts Bits Layouts Crc CrcFacts SpecFcs FcsFacts CrcPolyFacts Enums EnumsFacts Common CommonFacts Elements SpecElements ElementsFacts ElementTypes SpecElementTypes ElementTypesFacts
  Mgmt SpecMgmt MgmtFacts MgmtFacts2 MgmtFacts3 MgmtFacts5 Data SpecData DataFacts DataFacts2 Control Generic SpecGeneric GenericFacts GenericFacts2 GenericFacts3 ViewFacts
  SpecDelivery DeliveryFacts SpecNoise NoiseFacts SpecReserve.

Ltac wfx := repeat (apply wf_bytes_app; split); auto using le_bytes_wf; try (constructor; fail).
Section F.
Context {cfg : Cfg}.
Lemma type_written W R (t : BodyType W R) i subtype ok fixed cont conv empty_ok : mgmt_type W R t i subtype ok fixed cont conv empty_ok ->
  (subtype < 16)%N /\ (forall w, ok w -> wf_bytes (fixed w)) /\ MgmtRoundTrip t subtype ok fixed cont conv empty_ok.
Proof.
  assert (K : forall a, (a < 256)%N -> wf_bytes [a]) by (intros; repeat constructor; assumption).
  assert (K2 : forall a b, (a < 256)%N -> (b < 256)%N -> wf_bytes [a; b]) by (intros; repeat constructor; assumption).
  intros T. destruct T; (split; [reflexivity|]).
  - split; [intros; unfold fixed_beacon; wfx|exact beacon_rt].
  - split; [intros; unfold fixed_beacon; wfx|exact probe_resp_rt].
  - split; [intros; constructor|exact probe_rt].
  - split; [intros; unfold fixed_auth; wfx|exact auth_rt].
  - split; [intros; unfold fixed_assoc_req; wfx|exact assoc_req_rt].
  - split; [intros; unfold fixed_assoc_resp; wfx|exact assoc_resp_rt].
  - split; [intros; unfold fixed_reason; wfx|exact deauth_rt].
  - split; [intros; unfold fixed_reason; wfx|exact disassoc_rt].
  - split; [intros w [_ Ww]; unfold fixed_vendor; constructor; [reflexivity|exact Ww]|exact vendor_rt].
  - split; [intros; unfold fixed_open; wfx; now apply K2|exact open_rt].
  - split; [intros; unfold fixed_confirm; wfx; now apply K2|exact confirm_rt].
  - split; [intros; unfold fixed_close; now apply K2|exact close_rt].
Qed.
(** the first ten bytes of a frame *)
Lemma first_ten b0 b1 d a rest : (d < 65536)%N -> length a = 6 -> let g := [b0; b1] ++ le_bytes 2 d ++ a ++ rest in
  10 <= length g /\ gf_duration g = Ok d /\ gf_address_1 g = Ok a.
Proof.
  intros D La g. assert (L : 10 <= length g) by (unfold g; rewrite !app_length, le_bytes_length; cbn [length]; lia).
  split; [exact L|]. rewrite gf_duration_ok, gf_address_1_ok by exact L. split; f_equal.
  - change (skipn 2 g) with (le_bytes 2 d ++ a ++ rest). rewrite firstn_app_exact by (now rewrite le_bytes_length). now apply le_val_bytes_small.
  - change (skipn 4 g) with (a ++ rest). now apply firstn_app_exact.
Qed.
Lemma ctrl_written c : ok_ctrl c -> exists x, @ctrl_fcf _ serr c = Ok x /\ le_bytes 2 x = enc_fcf 1 (ctrl_subtype_into_bits (ctrl_subtype c)) (ctrl_flags c) /\
  Writes (wr_control c) (le_bytes 2 x ++ enc_ctrl c) /\ wf_bytes (le_bytes 2 x ++ enc_ctrl c) /\ fcf_frame_type x = FT_Control (ctrl_subtype c) /\ fcf_flags x = ctrl_flags c /\ (x < 65536)%N.
Proof.
  intros H. destruct (ctrl_fcf_spec c H) as (x & E & B & L & T & FF). exists x. split; [exact E|]. split; [exact L|].
  split.
  { eapply Writes_ext; [intros buf; unfold wr_control; rewrite E; reflexivity|].
    eapply Writes_eq; [apply wseq_W; constructor; [apply wr_bytes_W|constructor; [apply (proj1 (ctrl_round_trip c H))|constructor]]|]. cbn [concat]. now rewrite app_nil_r. }
  split; [|split; [exact T|split; [exact FF|exact B]]]. apply wf_bytes_app. split; [apply le_bytes_wf|]. destruct H as (_ & H).
  destruct c; cbn [enc_ctrl]; unfold address, SpecElementTypes.byte_array in H; rewrite ?wf_bytes_app; repeat split; try apply le_bytes_wf; tauto.
Qed.
(** what everybody sees of a written frame *)
Lemma seen ra d f : wrote ra d f -> exists g, gf_new f true = Ok g /\ f = enc_frame true g /\ wf_bytes g /\ gf_address_1 g = Ok ra /\ gf_duration g = Ok d.
Proof.
  intros X. destruct X as [W R t i subtype ok fixed cont conv empty_ok h w es buf buf' n T Hh Hw We Wc Room Wr|h p body buf buf' n Hh PO Room Wr|c ra d buf buf' n fcs Hc Sc Room Wr Fc].
  - destruct (type_written _ _ _ _ _ _ _ _ _ _ T) as (S & WF & RT). destruct (RT h w es true Hh Hw We Wc) as (Ws & _ & _).
    destruct (written_at _ _ _ Ws Room) as (b2 & n2 & E & F). rewrite Wr in E. injection E as <- <-. rewrite F.
    set (g := enc_mgmt subtype h (fixed w ++ es)). exists g.
    assert (Wg : wf_bytes g) by (apply enc_mgmt_wf; [exact S|exact Hh|apply wf_bytes_app; auto]).
    destruct Hh as (_ & HD & (L1 & _) & _). unfold u16 in HD.
    pose proof (first_ten (4 * 0 + 16 * subtype) (mh_flags h) (mh_duration h) (mh_ra h) (mh_ta h ++ mh_bssid h ++ le_bytes 2 (mh_seq h) ++ match mh_ht h with Some ht => ht | None => [] end ++ fixed w ++ es) HD L1) as Z.
    cbv zeta in Z. match type of Z with 10 <= length ?x /\ _ => assert (G : g = x) by (unfold g, enc_mgmt, enc_fcf, enc_mgmt_header; now rewrite <- !app_assoc) end.
    rewrite <- G in Z. destruct Z as (L & Z1 & Z2). split; [now apply gf_new_enc|]. auto.
  - destruct (data_round_trip h p body true Hh PO) as (Ws & _ & _).
    destruct (written_at _ _ _ Ws Room) as (b2 & n2 & E & F). rewrite Wr in E. injection E as <- <-. rewrite F.
    assert (Wb : wf_bytes body) by (destruct p; cbn [payload_ok] in PO; [tauto|destruct PO as [_ ->]; constructor]).
    set (g := enc_data h body). exists g. assert (Wg : wf_bytes g) by now apply enc_data_wf.
    destruct Hh as (_ & _ & HD & (L1 & _) & _). unfold u16 in HD.
    pose proof (first_ten (4 * 2 + 16 * subtype_number h) (dh_flags h) (dh_duration h) (dh_a1 h) (dh_a2 h ++ dh_a3 h ++ le_bytes 2 (dh_seq h) ++ enc_opt (dh_a4 h) ++ enc_opt (dh_qos h) ++ enc_opt (dh_ht h) ++ body) HD L1) as Z.
    cbv zeta in Z. match type of Z with 10 <= length ?x /\ _ => assert (G : g = x) by (unfold g, enc_data, enc_fcf, enc_data_header; now rewrite <- !app_assoc) end.
    rewrite <- G in Z. destruct Z as (L & Z1 & Z2). split; [now apply gf_new_enc|]. auto.
  - destruct (ctrl_written c Hc) as (x & _ & Lx & Ws & Wg & _). set (g := le_bytes 2 x ++ enc_ctrl c) in *.
    assert (Lg : length g = 2 + length (enc_ctrl c)) by (unfold g; now rewrite app_length, le_bytes_length).
    destruct (written_at (wr_control c) g buf Ws) as (b2 & n2 & E & F); [rewrite Lg; exact Room|]. rewrite Wr in E. injection E as <- <-. rewrite F in *.
    apply (proj1 (fcs_standard _ _ Wg)) in Fc. subst fcs. exists g.
    assert (Y : exists rest, (d < 65536)%N /\ length ra = 6 /\ enc_ctrl c = le_bytes 2 d ++ ra ++ rest).
    { destruct Hc as (_ & Hc). destruct c as [fl d' ra' ta|fl d' ra'|fl d' ra'|s fl body]; cbn [ctrl_says enc_ctrl] in *.
      - injection Sc as <- <-. exists ta. destruct Hc as (D & (A & _) & _). auto.
      - injection Sc as <- <-. exists []. destruct Hc as (D & (A & _)). rewrite app_nil_r. auto.
      - injection Sc as <- <-. exists []. destruct Hc as (D & (A & _)). rewrite app_nil_r. auto.
      - destruct (Nat.leb_spec 8 (length body)) as [L8|]; [|discriminate Sc].
        assert (ra = firstn 6 (skipn 2 body) /\ d = le_val (firstn 2 body)) as [-> ->] by (split; congruence). destruct Hc as (_ & _ & _ & _ & Wb).
        exists (skipn 8 body). assert (L2 : length (firstn 2 body) = 2) by (rewrite firstn_length; lia).
        split; [|split].
        + pose proof (le_val_bound (firstn 2 body) (wf_firstn 2 body Wb)) as B. rewrite L2 in B. exact B.
        + rewrite firstn_length, skipn_length. lia.
        + rewrite <- L2 at 1. rewrite le_bytes_val by now apply wf_firstn. rewrite <- (firstn_skipn 2 body) at 1. f_equal.
          rewrite <- (firstn_skipn 6 (skipn 2 body)) at 1. f_equal. destruct body as [|? [|? body]]; [cbn in L8; lia|cbn in L8; lia|reflexivity]. }
    destruct Y as (rest & D & La & Ec).
    pose proof (first_ten (4 * 1 + 16 * ctrl_subtype_into_bits (ctrl_subtype c)) (ctrl_flags c) d ra rest D La) as Z. cbv zeta in Z.
    match type of Z with 10 <= length ?x /\ _ => assert (G : g = x) by (unfold g; now rewrite Lx, Ec) end. rewrite <- G in Z. destruct Z as (L & Z1 & Z2).
    split; [now apply (gf_new_enc true)|]. auto.
Qed.
Lemma hears_frame me nav t ra d f : wrote ra d f ->
  hears me nav (t, f) = Ok (if list_eq_dec N.eq_dec ra me then nav else if (32768 <=? d)%N then nav else N.max nav (t + d)).
Proof. intros X. destruct (seen ra d f X) as (g & E & _ & _ & A & D). unfold hears. cbn [fst snd]. rewrite E, A, D. reflexivity. Qed.
Lemma hears_damaged me nav t ra d f b : wrote ra d f -> damaged f b -> hears me nav (t, b) = Ok nav.
Proof.
  intros X D. destruct (seen ra d f X) as (g & _ & F & W & _).
  destruct (damage_seen f b D) as (e & E).
  { exists g. rewrite F. pose proof (strip_frame true g W) as Z. exact Z. }
  unfold hears, gf_new. cbn [snd]. rewrite E. reflexivity.
Qed.
Lemma quiet me events res : arrives events res -> forall nav, exists nav', quiet_until me nav events = Ok nav' /\
  forall t, (t < nav')%N <-> (t < nav)%N \/ reserved me res t.
Proof.
  intros H. induction H as [|t0 ra d f events res X H IH|t0 ra d f b events res X D H IH]; intros nav; cbn [quiet_until].
  - exists nav. split; [reflexivity|]. intros t. split; [now left|]. intros [Z|(t1 & r & d & [] & _)]. exact Z.
  - rewrite (hears_frame me nav t0 ra d f X). cbn [rbind]. destruct (list_eq_dec N.eq_dec ra me) as [->|N]; [|destruct (N.leb_spec 32768 d) as [L|L]].
    + destruct (IH nav) as (nav' & E & S). exists nav'. split; [exact E|]. intros t. rewrite S. split; intros [Z|(t1 & r & d1 & J & Z)]; auto.
      * right. exists t1, r, d1. split; [now right|exact Z].
      * destruct J as [J|J]; [injection J as -> -> ->; destruct Z as [Z _]; contradiction|]. right. exists t1, r, d1. auto.
    + destruct (IH nav) as (nav' & E & S). exists nav'. split; [exact E|]. intros t. rewrite S. split; intros [Z|(t1 & r & d1 & J & Z)]; auto.
      * right. exists t1, r, d1. split; [now right|exact Z].
      * destruct J as [J|J]; [injection J as -> -> ->; lia|]. right. exists t1, r, d1. auto.
    + destruct (IH (N.max nav (t0 + d))) as (nav' & E & S). exists nav'. split; [exact E|]. intros t. rewrite S. split; intros [Z|(t1 & r & d1 & J & Z)].
      * destruct (N.lt_ge_cases t nav) as [Y|Y]; [now left|]. right. exists t0, ra, d. split; [now left|]. split; [exact N|]. split; [exact L|lia].
      * right. exists t1, r, d1. split; [now right|exact Z].
      * left. lia.
      * destruct J as [J|J]; [injection J as -> -> ->; left; lia|]. right. exists t1, r, d1. auto.
  - rewrite (hears_damaged me nav t0 ra d f b X D). cbn [rbind]. apply IH.
Qed.
Theorem virtual_carrier_sense me events res : arrives events res -> exists nav, quiet_until me 0 events = Ok nav /\ forall t, (t < nav)%N <-> reserved me res t.
Proof.
  intros H. destruct (quiet me events res H 0%N) as (nav & E & S). exists nav. split; [exact E|]. intros t. rewrite S. split; [intros [Z|Z]; [lia|exact Z]|now right].
Qed.
Lemma rts_reads fl d ra ta : (d < 65536)%N -> length ra = 6 -> length ta = 6 -> Reads (rd_ctrl Ct_RTS fl) (enc_ctrl (C_RTS fl d ra ta)) (C_RTS fl d ra ta).
Proof.
  intros Hd La Lt rest. cbn [enc_ctrl]. unfold rd_ctrl. match goal with |- context [gread _ ?x 0] => pose proof (At_start x) as A end. rewrite <- ?app_assoc in A |- *.
  rstep A. rstep A. rstep A. do 2 f_equal; rewrite ?app_length, ?le_bytes_length; cbn [length]; lia.
Qed.
(** the answer to a request to send *)
Theorem answered me gap fl d ta buf buf' n fcs : ok_ctrl (C_RTS fl d me ta) -> 16 + slack <= length buf -> wr_control (C_RTS fl d me ta) buf = Ok (buf', n) ->
  is_fcs (firstn n buf') fcs -> (gap <= d)%N -> answers me gap (firstn n buf' ++ fcs) = Ok (Some (C_CTS 0 (d - gap) ta)) /\ ok_ctrl (C_CTS 0 (d - gap) ta).
Proof.
  intros Hc Room Wr Fc G. destruct (ctrl_written _ Hc) as (x & _ & Lx & Ws & Wg & T & FF & B). set (g := le_bytes 2 x ++ enc_ctrl (C_RTS fl d me ta)) in *.
  assert (H := Hc). destruct H as (_ & D & (Lr & _) & (Lt & Wt)).
  assert (Lg : length g = 16) by (unfold g; cbn [enc_ctrl]; rewrite !app_length, !le_bytes_length; lia).
  destruct (written_at _ g buf Ws) as (b2 & n2 & E & F); [rewrite Lg; exact Room|]. rewrite Wr in E. injection E as <- <-. rewrite F in *.
  pose proof (proj1 (fcs_standard _ _ Wg) Fc) as Z. split; [|split; [reflexivity|]; split; [unfold u16 in *; lia|split; assumption]].
  unfold answers. rewrite Z. change (g ++ le_bytes 4 (crc32 g)) with (enc_frame true g). rewrite gf_new_enc by (exact Wg || lia). cbn [rbind]. rewrite gf_fcf_ok by lia. cbn [rbind].
  assert (X : le_val (firstn 2 g) = x) by (unfold g; rewrite firstn_app_exact by (now rewrite le_bytes_length); now apply le_val_bytes_small). rewrite X, T, FF. cbn [ctrl_subtype ctrl_flags].
  assert (Sl : @slice_from serr (enc_frame true g) 2 = Ok (enc_ctrl (C_RTS fl d me ta) ++ le_bytes 4 (crc32 g))).
  { unfold slice_from, enc_frame. rewrite app_length, Lg. cbn [Nat.leb Nat.add]. reflexivity. }
  rewrite Sl. cbn [rbind].
  assert (Rd : pread (rd_ctrl Ct_RTS fl) (enc_ctrl (C_RTS fl d me ta) ++ le_bytes 4 (crc32 g)) 0 = Ok (C_RTS fl d me ta)).
  { unfold pread. rewrite (gread_step _ _ 0 (enc_ctrl (C_RTS fl d me ta)) (C_RTS fl d me ta) (le_bytes 4 (crc32 g)) (At_start _)); [reflexivity| |discriminate].
    apply rts_reads; assumption. }
  rewrite Rd. cbn [rbind]. destruct (list_eq_dec N.eq_dec me me) as [_|N]; [|now destruct N]. now rewrite (proj2 (N.leb_le _ _) G).
Qed.
(** a third station that hears either of the two frames is quiet to the end *)
Theorem exchange me a b t d gap events res : arrives events res -> me <> a -> me <> b -> (d < 32768)%N -> (gap <= d)%N ->
  In (t, b, d) res \/ In (t + gap, a, d - gap)%N res -> exists nav, quiet_until me 0 events = Ok nav /\ (t + d <= nav)%N.
Proof.
  intros H Na Nb D G J. destruct (virtual_carrier_sense me events res H) as (nav & E & S). exists nav. split; [exact E|].
  apply N.nlt_ge. intros L. apply (N.lt_irrefl nav). apply S. destruct J as [J|J].
  - exists t, b, d. split; [exact J|]. split; [congruence|]. split; [exact D|lia].
  - exists (t + gap)%N, a, (d - gap)%N. split; [exact J|]. split; [congruence|]. split; lia.
Qed.
(** nobody else answers *)
Lemma gread_rd {A} (r : reader A) from off x o : gread r from off = Ok (x, o) -> exists n, r (skipn off from) = Ok (x, n) /\ o = off + n.
Proof. unfold gread. destruct (end_bad _ _); [discriminate|]. destruct (r (skipn off from)) as [[y n]|e|] eqn:E; intros Z; [|discriminate Z|discriminate Z]. injection Z as <- <-. now exists n. Qed.
Lemma rts_got s fl body fl' d ra ta : pread (rd_ctrl s fl) body 0 = Ok (C_RTS fl' d ra ta) -> d = le_val (firstn 2 body) /\ ra = firstn 6 (skipn 2 body).
Proof.
  unfold pread. destruct (gread (rd_ctrl s fl) body 0) as [[c o]|e|] eqn:E; intros Z; [|discriminate Z|discriminate Z]. injection Z as ->.
  apply gread_rd in E. destruct E as (n & E & _). change (skipn 0 body) with body in E.
  destruct s; cbn [rd_ctrl] in E; unfold rd_ctrl in E; try discriminate E;
    destruct (gread (rd_le 2) body 0) as [[d1 o1]|e1|] eqn:E1; cbn [rbind] in E; try discriminate E;
    destruct (gread (rd_bytes 6) body o1) as [[a1 o2]|e2|] eqn:E2; cbn [rbind] in E; try discriminate E.
  destruct (gread (rd_bytes 6) body o2) as [[a2 o3]|e3|] eqn:E3; cbn [rbind] in E; try discriminate E.
  injection E as <- <- <- <- <-.
  apply gread_rd in E1. destruct E1 as (n1 & E1 & ->). unfold rd_le in E1. destruct (_ <? _) in E1; [discriminate E1|]. injection E1 as <- <-.
  apply gread_rd in E2. destruct E2 as (n2 & E2 & _). unfold rd_bytes in E2. destruct (_ <? _) in E2; [discriminate E2|]. injection E2 as <- <-. auto.
Qed.
Lemma view_long f g : gf_new f true = Ok g -> 10 <= length g.
Proof.
  unfold gf_new. destruct (strip_and_validate_fcs f) as [h|e|]; cbn [rbind]; intros E; [|discriminate E|discriminate E].
  destruct (Nat.ltb_spec (length h) 10) as [L|L]; [discriminate E|]. injection E as <-. exact L.
Qed.
Theorem answered_only me gap ra d f x : wrote ra d f -> answers me gap f = Ok (Some x) -> ra = me /\ (gap <= d)%N /\ exists ta, x = C_CTS 0 (d - gap) ta.
Proof.
  intros X. destruct (seen ra d f X) as (g & E & F & W & A & D). pose proof (view_long f g E) as L. rewrite gf_address_1_ok in A by exact L. rewrite gf_duration_ok in D by exact L.
  injection A as A. injection D as D. unfold answers. rewrite E. cbn [rbind]. rewrite gf_fcf_ok by exact L. cbn [rbind].
  destruct (fcf_frame_type _) as [s|s|s|s]; try discriminate.
  assert (Sl : @slice_from serr f 2 = Ok (skipn 2 f)).
  { unfold slice_from. rewrite F. unfold enc_frame. rewrite app_length, (proj2 (Nat.leb_le _ _)) by lia. reflexivity. }
  rewrite Sl. cbn [rbind]. destruct (pread _ _ 0) as [c|e|] eqn:Rd; cbn [rbind]; try discriminate.
  destruct c as [fl d' ra' ta|? ? ?|? ? ?|? ? ?]; try discriminate. apply rts_got in Rd. destruct Rd as (-> & ->).
  assert (Fa : firstn 6 (skipn 2 (skipn 2 f)) = ra /\ le_val (firstn 2 (skipn 2 f)) = d).
  { rewrite <- A, <- D, F. unfold enc_frame. destruct g as [|b0 [|b1 [|b2 [|b3 [|b4 [|b5 [|b6 [|b7 [|b8 [|b9 g]]]]]]]]]]; cbn [length] in L; try lia. split; reflexivity. }
  destruct Fa as (-> & ->). destruct (list_eq_dec N.eq_dec ra me) as [->|]; [|discriminate]. destruct (N.leb_spec gap d) as [G|G]; [|discriminate].
  intros Z. injection Z as <-. split; [reflexivity|]. split; [exact G|]. now exists ta.
Qed.
Theorem not_answered me gap ra d f b : wrote ra d f -> damaged f b -> exists e, answers me gap b = Err e.
Proof.
  intros X D. destruct (seen ra d f X) as (g & _ & F & W & _).
  destruct (damage_seen f b D) as (e & E).
  { exists g. rewrite F. pose proof (strip_frame true g W) as Z. exact Z. }
  exists e. unfold answers, gf_new. rewrite E. reflexivity.
Qed.
End F.
