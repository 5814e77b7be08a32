(** Proofs about the agreement of the generic and the typed view of a frame. *)
From Verif Require Import Base BaseFacts Bits Layouts BitsFacts Enums EnumsFacts Common SpecBase SpecCommon CommonFacts Crc CrcFacts
  Elements ElementsFacts ElementTypes SpecElementTypes ElementTypesFacts StepsFacts Mgmt SpecMgmt MgmtFacts MgmtFacts2 MgmtFacts5
  CryptoHeader Amsdu Data SpecData DataFacts DataFacts2 Control Generic SpecGeneric GenericFacts GenericFacts2 GenericFacts3 SpecPortable.

Section Facts.
Context {cfg : Cfg}.

Lemma gf_new_enc fcs g : wf_bytes g -> 10 <= length g -> gf_new (enc_frame fcs g) fcs = Ok g.
Proof.
  intros W L. unfold gf_new. rewrite strip_frame by exact W. cbn [rbind].
  now rewrite (proj2 (Nat.ltb_ge _ _)) by lia.
Qed.
Lemma field_at_app a b c : field_at (length b) (length a) (a ++ b ++ c) = Some b.
Proof.
  unfold field_at. rewrite !app_length. rewrite (proj2 (Nat.leb_le _ _)) by lia.
  rewrite skipn_app_exact by reflexivity. now rewrite firstn_app_exact by reflexivity.
Qed.
Lemma field_at_off n off a b c : length a = off -> length b = n -> field_at n off (a ++ b ++ c) = Some b.
Proof. intros <- <-. apply field_at_app. Qed.

(** the fields of a frame with the common header *)
Lemma common_fields b0 b1 d a1 a2 a3 s rest (t : N) : ((b0 / 4) mod 4 = t)%N -> (t = 0 \/ t = 2)%N ->
  let g := [b0; b1] ++ d ++ a1 ++ a2 ++ a3 ++ s ++ rest in
  wf_bytes g -> length d = 2 -> length a1 = 6 -> length a2 = 6 -> length a3 = 6 -> length s = 2 ->
  10 <= length g /\ fcf_flags (le_val (firstn 2 g)) = b1 /\
  gf_fcf g = Ok (le_val (firstn 2 g)) /\ gf_duration g = Ok (le_val d) /\ gf_address_1 g = Ok a1 /\
  gf_address_2 g = Ok (Some a2) /\ gf_address_3 g = Ok (Some a3) /\ gf_sequence_control g = Ok (Some (if native_le then le_val s else le_val (rev s))).
Proof.
  intros T0 T g W Ld L1 L2 L3 Ls.
  assert (L : 10 <= length g) by (unfold g; rewrite !app_length; cbn [length]; lia).
  assert (MD : mgmt_or_data g = true).
  { unfold mgmt_or_data, frame_type_bits, byte, g. cbn [app nth]. rewrite T0. destruct T as [-> | ->]; reflexivity. }
  assert (SA : has_second_address g && negb (missed_second_address g) = true).
  { unfold has_second_address, missed_second_address. rewrite MD. cbn [orb andb].
    unfold frame_type_bits, byte, g. cbn [app nth]. rewrite T0. destruct T as [-> | ->]; reflexivity. }
  destruct (accessors g W L) as (A0 & A1 & A2 & A3 & A4 & _). rewrite MD in *. rewrite SA in A3.
  destruct (gf_type g W L) as [FT FF].
  split; [exact L|]. split; [rewrite FF; reflexivity|]. split; [exact A0|].
  split. { rewrite A1. unfold g. rewrite skipn_app_exact by reflexivity. now rewrite firstn_app_exact by (now rewrite Ld). }
  split. { rewrite A2. unfold g. rewrite (app_assoc [b0; b1] d). rewrite skipn_app_exact by (rewrite app_length, Ld; reflexivity).
    now rewrite firstn_app_exact by (now rewrite L1). }
  split. { rewrite A3. unfold g. rewrite (app_assoc [b0; b1] d), (app_assoc _ a1). rewrite field_at_off; [reflexivity| |exact L2].
    rewrite !app_length, Ld, L1. reflexivity. }
  split. { rewrite A4. unfold g. rewrite (app_assoc [b0; b1] d), (app_assoc _ a1), (app_assoc _ a2). rewrite field_at_off; [reflexivity| |exact L3].
    rewrite !app_length, Ld, L1, L2. reflexivity. }
  unfold gf_sequence_control. rewrite A0. cbn [rbind]. rewrite FT, has_seq_bits, MD.
  assert (F : forall n, n = length s -> skipn 22 g = s ++ rest).
  { intros _ _. unfold g. rewrite (app_assoc [b0; b1] d), (app_assoc _ a1), (app_assoc _ a2), (app_assoc _ a3).
    apply skipn_app_exact. rewrite !app_length, Ld, L1, L2, L3. reflexivity. }
  specialize (F _ eq_refl). unfold pread, gread. rewrite end_bad_lt by (unfold g; rewrite !app_length; cbn [length]; lia).
  rewrite F. unfold rd_ne, rd_le, rd_be, be_val.
  destruct native_le; (rewrite (proj2 (Nat.ltb_ge _ _)) by (rewrite app_length; lia)); cbn [rbind res_ok]; rewrite firstn_app_exact by (now rewrite Ls); reflexivity.
Qed.
Lemma reversed_swapped v : u16 v -> le_val (rev (le_bytes 2 v)) = swapped v.
Proof.
  intros U. unfold swapped. cbn [le_bytes rev app le_val]. rewrite N.mul_0_r, N.add_0_r.
  rewrite (N.mod_small (v / 256)) by (apply N.div_lt_upper_bound; [lia|exact U]). lia.
Qed.
Lemma mgmt_view {W R} (t : BodyType W R) fcs bs h r n : wf_bytes bs -> rd_mgmt t fcs bs = Ok ((h, r), n) ->
  exists g x s, gf_new bs fcs = Ok g /\ gf_fcf g = Ok x /\ fcf_flags x = mh_flags h /\ fcf_frame_type x = FT_Management s /\
    gf_duration g = Ok (mh_duration h) /\ gf_address_1 g = Ok (mh_ra h) /\ gf_address_2 g = Ok (Some (mh_ta h)) /\
    gf_address_3 g = Ok (Some (mh_bssid h)) /\
    gf_sequence_control g = Ok (Some (if native_le then mh_seq h else swapped (mh_seq h))).
Proof.
  intros Wb E. destruct (rd_mgmt_inv t fcs bs h r n Wb E) as (b0 & body & m & T & B0 & WB & Hh & -> & _).
  pose proof Hh as (HF & HD & (L1 & W1) & (L2 & W2) & (L3 & W3) & HS & _).
  set (g := [b0; mh_flags h] ++ enc_mgmt_header h ++ body) in *.
  assert (Wg : wf_bytes g).
  { unfold g, enc_frame in *. destruct fcs; [now apply wf_bytes_app in Wb|exact Wb]. }
  assert (G : g = [b0; mh_flags h] ++ le_bytes 2 (mh_duration h) ++ mh_ra h ++ mh_ta h ++ mh_bssid h ++ le_bytes 2 (mh_seq h) ++
     (match mh_ht h with Some ht => ht | None => [] end ++ body)).
  { unfold g, enc_mgmt_header. now rewrite <- !app_assoc. }
  rewrite G in Wg. destruct (common_fields b0 (mh_flags h) (le_bytes 2 (mh_duration h)) (mh_ra h) (mh_ta h) (mh_bssid h) (le_bytes 2 (mh_seq h))
    (match mh_ht h with Some ht => ht | None => [] end ++ body) 0 T (or_introl eq_refl) Wg (le_bytes_length _ _) L1 L2 L3 (le_bytes_length _ _))
    as (L & FF & A0 & A1 & A2 & A3 & A4 & A5). rewrite <- G in *.
  destruct (gf_type g Wg L) as [FT _]. assert (FB : frame_type_bits g = 0%N) by exact T. rewrite FB in FT.
  exists g, (le_val (firstn 2 g)), (mgmt_subtype_from_bits (frame_subtype_bits g)).
  split; [now apply gf_new_enc|]. split; [exact A0|]. split; [exact FF|]. split; [exact FT|].
  rewrite le_val_bytes_small in A1 by exact HD. split; [exact A1|]. split; [exact A2|]. split; [exact A3|]. split; [exact A4|].
  rewrite A5. do 2 f_equal. destruct native_le; [now apply le_val_bytes_small|now apply reversed_swapped].
Qed.
Lemma data_view fcs bs h p n : wf_bytes bs -> rd_data fcs bs = Ok ((h, p), n) ->
  exists g x, gf_new bs fcs = Ok g /\ gf_fcf g = Ok x /\ fcf_flags x = dh_flags h /\ fcf_frame_type x = FT_Data (dh_subtype h) /\
    gf_duration g = Ok (if native_le then dh_duration h else swapped (dh_duration h)) /\
    gf_address_1 g = Ok (dh_a1 h) /\ gf_address_2 g = Ok (Some (dh_a2 h)) /\ gf_address_3 g = Ok (Some (dh_a3 h)) /\
    gf_sequence_control g = Ok (Some (dh_seq h)).
Proof.
  intros Wb E.
  assert (X : exists g, bs = enc_frame fcs g /\ wf_bytes g /\ rd_data false g = Ok ((h, p), n)).
  { destruct fcs; [|exists bs; auto]. rewrite rd_data_fcs in E.
    destruct (strip_and_validate_fcs bs) as [g| |] eqn:S; try discriminate. cbn [rbind] in E.
    apply (proj1 (strip_fcs_spec bs Wb)) in S. exists g. split; [exact S|]. split; [|exact E]. rewrite S in Wb. now apply wf_bytes_app in Wb. }
  clear E Wb. destruct X as (g & -> & Wg & E). unfold rd_data in E. cbn [rbind] in E.
  destruct (gread rd_data_header g 0) as [[h' o]| |] eqn:GR; try discriminate. cbn [rbind] in E.
  assert (h' = h) as ->.
  { destruct (data_has_payload (dh_subtype h')); [|now injection E]. destruct (slice_from g o); try discriminate. cbn [rbind] in E. now injection E. }
  clear E. apply gread_inv in GR as (_ & k & GR & _). cbn [skipn] in GR.
  destruct g as [|b0 [|b1 rest]].
  { destruct (data_header_refuse [] Wg) as [e Q]; [discriminate|congruence]. }
  { destruct (data_header_refuse [b0] Wg) as [e Q]; [discriminate|congruence]. }
  destruct (N.eq_dec ((b0 / 4) mod 4) 2) as [T|T].
  2: { destruct (data_header_refuse (b0 :: b1 :: rest) Wg) as [e Q]; [intros ? ? ? [= <- <- <-]; now left|congruence]. }
  destruct (le_lt_dec (data_header_size b0 b1) (length (b0 :: b1 :: rest))) as [L|L].
  2: { destruct (data_header_refuse (b0 :: b1 :: rest) Wg) as [e Q]; [intros ? ? ? [= <- <- <-]; now right|congruence]. }
  destruct (data_header_accept b0 b1 rest Wg T L) as (h2 & tail & H & F & SN & R & Wt & Ln & RD).
  rewrite RD in GR. assert (h2 = h) as -> by congruence. clear RD GR.
  pose proof H as (C & HF & HD & (L1 & W1) & (L2 & W2) & (L3 & W3) & HS & _).
  set (g := b0 :: b1 :: rest) in *.
  assert (G : g = [b0; b1] ++ ne_bytes 2 (dh_duration h) ++ dh_a1 h ++ dh_a2 h ++ dh_a3 h ++ ne_bytes 2 (dh_seq h) ++
     ((enc_opt (dh_a4 h) ++ enc_opt (dh_qos h) ++ enc_opt (dh_ht h)) ++ tail)).
  { unfold g. rewrite R. unfold enc_data_header_ne. now rewrite <- !app_assoc. }
  rewrite G in Wg. destruct (common_fields b0 b1 (ne_bytes 2 (dh_duration h)) (dh_a1 h) (dh_a2 h) (dh_a3 h) (ne_bytes 2 (dh_seq h))
    ((enc_opt (dh_a4 h) ++ enc_opt (dh_qos h) ++ enc_opt (dh_ht h)) ++ tail) 2 T (or_intror eq_refl) Wg (ne_bytes_length _ _) L1 L2 L3 (ne_bytes_length _ _))
    as (L10 & FF & A0 & A1 & A2 & A3 & A4 & A5). rewrite <- G in *.
  destruct (gf_type g Wg L10) as [FT _]. unfold frame_type_bits, frame_subtype_bits, byte in FT.
  replace (nth 0 g 0%N) with b0 in FT by reflexivity. rewrite T, <- SN in FT. cbn [type_of_bits] in FT.
  exists g, (le_val (firstn 2 g)). split; [now apply gf_new_enc|]. split; [exact A0|]. split; [congruence|].
  split. { rewrite FT. f_equal. apply C. }
  split. { rewrite A1. f_equal. unfold ne_bytes. destruct native_le; [now apply le_val_bytes_small|now apply reversed_swapped]. }
  split; [exact A2|]. split; [exact A3|]. split; [exact A4|]. rewrite A5. do 2 f_equal. unfold ne_bytes.
  destruct native_le; [now apply le_val_bytes_small|now apply (be_val_bytes_small 2)].
Qed.
Lemma ctrl_view g x s c n : wf_bytes g -> 10 <= length g -> gf_fcf g = Ok x -> fcf_frame_type x = FT_Control s ->
  rd_ctrl s (fcf_flags x) (skipn 2 g) = Ok (c, n) ->
  gf_address_1 g = Ok (ctrl_receiver_address c) /\ gf_address_3 g = Ok None /\ gf_sequence_control g = Ok None /\
  match c with C_RTS _ d _ _ | C_CTS _ d _ | C_Ack _ d _ => gf_duration g = Ok d | C_Unknown _ _ body => g = firstn 2 g ++ body end /\
  (forall a, ctrl_transmitter_address c = Some a -> field_at 6 10 g = Some a).
Proof.
  intros W L E T R. rewrite gf_fcf_ok in E by exact L. assert (x = le_val (firstn 2 g)) as -> by congruence. clear E.
  destruct (gf_type g W L) as [FT FF]. rewrite FT in T.
  assert (TB : frame_type_bits g = 1%N).
  { pose proof (type_bits_lt g). assert (frame_type_bits g = 0 \/ frame_type_bits g = 1 \/ frame_type_bits g = 2 \/ frame_type_bits g = 3)%N as [Z|[Z|[Z|Z]]] by lia;
      rewrite Z in T; cbn in T; congruence. }
  assert (MD : mgmt_or_data g = false) by (unfold mgmt_or_data; now rewrite TB).
  unfold gf_address_3, gf_sequence_control. rewrite gf_fcf_ok by exact L. cbn [rbind]. rewrite FT, has_address_3_bits, has_seq_bits, MD.
  rewrite gf_address_1_ok, gf_duration_ok by exact L.
  assert (C : canonical_frame_type (FT_Control s)).
  { rewrite <- T, <- FT. apply fcf_parsed_canonical. rewrite <- (firstn_skipn 2 g) in W. apply wf_bytes_app in W as [W _].
    apply le_val_bound in W. rewrite firstn_length in W. replace (Nat.min 2 (length g)) with 2 in W by lia. exact W. }
  pose proof (ctrl_received s (fcf_flags (le_val (firstn 2 g))) (skipn 2 g) (wf_skipn 2 g W)) as CR. rewrite R in CR.
  destruct CR as (Cs & Cf & (rest & G) & _ & OK).
  assert (Hc : ok_ctrl c).
  { apply OK; [exact C|]. rewrite FF. unfold u8, byte. apply (proj1 (Forall_nth _ _) W). lia. }
  destruct (ctrl_addresses c Hc) as (CA & _ & CT & _).
  assert (UB : forall s' f' body, c = C_Unknown s' f' body -> body = skipn 2 g).
  { intros s' f' body ->. assert (X : Ok (C_Unknown s (fcf_flags (le_val (firstn 2 g))) (skipn 2 g), length (skipn 2 g)) = @Ok serr _ (C_Unknown s' f' body, n) -> body = skipn 2 g) by congruence.
    destruct Hc as (_ & _ & N1 & N2 & N3 & _). cbn [ctrl_subtype] in Cs. subst s'. apply X. rewrite <- R. now destruct s. }
  assert (L8 : 8 <= length (enc_ctrl c)).
  { destruct c as [f d ra ta|f d ra|f d ra|s' f' body]; cbn [enc_ctrl].
    - destruct Hc as (_ & _ & (La & _) & _). rewrite !app_length, le_bytes_length. lia.
    - destruct Hc as (_ & _ & (La & _)). rewrite !app_length, le_bytes_length. lia.
    - destruct Hc as (_ & _ & (La & _)). rewrite !app_length, le_bytes_length. lia.
    - rewrite (UB _ _ _ eq_refl), skipn_length. lia. }
  assert (FA : forall n off a, field_at n off (enc_ctrl c) = Some a -> field_at n (2 + off) g = Some a).
  { intros k off a. unfold field_at. destruct (Nat.leb_spec (off + k) (length (enc_ctrl c))) as [Lo|]; [|discriminate]. intros X.
    pose proof (f_equal (@length N) G) as LG. rewrite skipn_length, app_length in LG.
    rewrite (proj2 (Nat.leb_le _ _)) by lia. rewrite <- X. f_equal. rewrite <- skipn_skipn_add, G, skipn_app, firstn_app.
    rewrite (proj2 (Nat.sub_0_le _ _)) by (rewrite skipn_length; lia). now rewrite firstn_O, app_nil_r. }
  split. { pose proof (FA 6 2 _ (CA L8)) as X. unfold field_at in X. cbn [Nat.add] in X. destruct (10 <=? length g); [|discriminate]. assert (SI : forall a b : bytes, Some a = Some b -> a = b) by (clear; congruence). f_equal. exact (SI _ _ X). }
  split; [reflexivity|]. split; [reflexivity|]. split.
  - assert (D : forall d, u16 d -> (exists a r, length a = 6 /\ skipn 2 g = le_bytes 2 d ++ a ++ r) -> @Ok serr _ (le_val (firstn 2 (skipn 2 g))) = Ok d).
    { intros d Hd (a & r & _ & ->). rewrite firstn_app_exact by (now rewrite le_bytes_length). f_equal. now apply le_val_bytes_small. }
    destruct c as [f d ra ta|f d ra|f d ra|s' f' body]; cbn [enc_ctrl] in G.
    + destruct Hc as (_ & Hd & (La & _) & _). apply D; [exact Hd|]. exists ra, (ta ++ rest). split; [exact La|]. now rewrite <- !app_assoc in G.
    + destruct Hc as (_ & Hd & (La & _)). apply D; [exact Hd|]. exists ra, rest. split; [exact La|]. now rewrite <- !app_assoc in G.
    + destruct Hc as (_ & Hd & (La & _)). apply D; [exact Hd|]. exists ra, rest. split; [exact La|]. now rewrite <- !app_assoc in G.
    + rewrite (UB _ _ _ eq_refl). now rewrite firstn_skipn.
  - intros a Ea. apply (FA 6 8). rewrite <- CT by congruence. exact Ea.
Qed.
End Facts.

(** on big endian machines the two views differ *)
Lemma views_mgmt_big_endian {cfg : Cfg} : native_le = false -> exists bs h r n q, wf_bytes bs /\
  rd_mgmt ProbeRequest false bs = Ok ((h, r), n) /\ gf_sequence_control bs = Ok (Some q) /\ q <> mh_seq h.
Proof.
  intros NL. exists (beacon_like ++ [0; 1; 65])%N. do 4 eexists. split; [now apply wf_bytesb_spec|].
  destruct cfg as [[] [] []]; try discriminate NL; (split; [vm_compute; reflexivity|]; split; [vm_compute; reflexivity|discriminate]).
Qed.
Lemma views_data_big_endian {cfg : Cfg} : native_le = false -> exists bs h p n d, wf_bytes bs /\
  rd_data false bs = Ok ((h, p), n) /\ gf_duration bs = Ok d /\ d <> dh_duration h.
Proof.
  intros NL. exists ([8; 0; 1; 0] ++ repeat 7 18 ++ [0x10; 0x20] ++ [1; 2])%N. do 4 eexists. split; [now apply wf_bytesb_spec|].
  destruct cfg as [[] [] []]; try discriminate NL; (split; [vm_compute; reflexivity|]; split; [vm_compute; reflexivity|discriminate]).
Qed.
(** the transmitter of a request to send *)
Lemma views_rts {cfg : Cfg} : exists g x c n, wf_bytes g /\ 10 <= length g /\ gf_fcf g = Ok x /\ fcf_frame_type x = FT_Control Ct_RTS /\
  rd_ctrl Ct_RTS (fcf_flags x) (skipn 2 g) = Ok (c, n) /\ ctrl_transmitter_address c <> None /\ gf_address_2 g = Ok None.
Proof.
  exists rts. do 3 eexists. split; [now apply wf_bytesb_spec|]. split; [cbn; lia|].
  destruct cfg as [[] [] []]; (split; [vm_compute; reflexivity|]; split; [vm_compute; reflexivity|]; split; [vm_compute; reflexivity|]; split; [discriminate|vm_compute; reflexivity]).
Qed.
Lemma rts_view {cfg : Cfg} g x c n : gf_fcf g = Ok x -> fcf_frame_type x = FT_Control Ct_RTS ->
  rd_ctrl Ct_RTS (fcf_flags x) (skipn 2 g) = Ok (c, n) -> ctrl_transmitter_address c <> None /\ gf_address_2 g = Ok None.
Proof.
  intros E T R. split.
  - unfold rd_ctrl in R.
    repeat match type of R with rbind ?m _ = _ => destruct m as [[? ?]| |]; cbn [rbind] in R; try discriminate end.
    now injection R as <- <-.
  - unfold gf_address_2. rewrite E. cbn [rbind]. now rewrite T.
Qed.
