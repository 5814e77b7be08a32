(** Proofs about data frames: accepted byte strings, complete frames, address roles. *)
From Verif Require Import Base BaseFacts Bits Layouts BitsFacts Enums EnumsFacts Common SpecBase SpecCommon CommonFacts Crc CrcFacts
  Elements ElementsFacts ElementTypes SpecElementTypes ElementTypesFacts StepsFacts Mgmt SpecMgmt MgmtFacts
  CryptoHeader Amsdu Data SpecData DataFacts.

Local Ltac lens := rewrite ?app_length, ?le_bytes_length, ?be_bytes_length, ?ne_bytes_length; cbn [length].

Section Facts.
Context {cfg : Cfg}.

Lemma opt_split p n bs : wf_bytes bs -> (if p : bool then n else 0) <= length bs -> exists o rest,
  opt_field p n o /\ bs = enc_opt o ++ rest /\ wf_bytes rest /\ length bs = (if p then n else 0) + length rest.
Proof.
  intros W L. destruct p.
  - destruct (split_bytes n bs W L) as (b & rest & Lb & Wb & -> & Wr & Lr). exists (Some b), rest. cbn. rewrite app_length. auto.
  - exists None, bs. cbn. auto.
Qed.
Lemma fcf_data b0 b1 : (b0 < 256)%N -> (b1 < 256)%N -> ((b0 / 4) mod 4 = 2)%N ->
  exists s, fcf_frame_type (b0 + 256 * b1) = FT_Data s /\ canonical_frame_type (FT_Data s) /\
    data_subtype_into_bits s = ((b0 / 16) mod 16)%N.
Proof.
  intros H0 H1 T. destruct (fcf_of_bytes b0 b1 H0 H1) as [_ E].
  assert (B : (b0 + 256 * b1 < 65536)%N) by lia. pose proof (fcf_parsed_canonical _ B) as C.
  destruct (fcf_frame_type (b0 + 256 * b1)) as [s|s|s|s]; cbn [spec_type_of] in E; injection E as E1 E2; try lia.
  exists s. auto.
Qed.
Lemma two_bytes b0 b1 : (b0 < 256)%N -> (b1 < 256)%N -> le_bytes 2 (b0 + 256 * b1) = [b0; b1].
Proof. intros H0 H1. cbn [le_bytes]. f_equal; [lia|]. f_equal. lia. Qed.
(** a frame with a complete header *)
Lemma data_header_accept b0 b1 rest : wf_bytes (b0 :: b1 :: rest) -> ((b0 / 4) mod 4 = 2)%N ->
  data_header_size b0 b1 <= length (b0 :: b1 :: rest) ->
  exists h tail, ok_data_header h /\ dh_flags h = b1 /\ subtype_number h = ((b0 / 16) mod 16)%N /\
    rest = enc_data_header_ne h ++ tail /\ wf_bytes tail /\ length (enc_data_header_ne h) + 2 = data_header_size b0 b1 /\
    rd_data_header (b0 :: b1 :: rest) = Ok (h, length (enc_data_header_ne h) + 2).
Proof.
  intros W T L. apply wf_bytes_cons in W as [H0 W]. apply wf_bytes_cons in W as [H1 W].
  destruct (fcf_data b0 b1 H0 H1 T) as (s & E & C & ES). unfold data_header_size in *. cbn [length] in L.
  set (p4 := N.testbit b1 0 && N.testbit b1 1) in *. set (pq := std_is_qos ((b0 / 16) mod 16)) in *. set (ph := N.testbit b1 7) in *.
  destruct (split_ne 2 rest W) as (d & r1 & Hd & -> & W1 & L1); [lia|]. rewrite app_length, ne_bytes_length in L.
  destruct (split_bytes 6 r1 W1) as (a1 & r2 & La1 & Wa1 & -> & W2 & L2); [lia|]. rewrite app_length in L.
  destruct (split_bytes 6 r2 W2) as (a2 & r3 & La2 & Wa2 & -> & W3 & L3); [lia|]. rewrite app_length in L.
  destruct (split_bytes 6 r3 W3) as (a3 & r4 & La3 & Wa3 & -> & W4 & L4); [lia|]. rewrite app_length in L.
  destruct (split_ne 2 r4 W4) as (sq & r5 & Hs & -> & W5 & L5); [lia|]. rewrite app_length, ne_bytes_length in L.
  destruct (opt_split p4 6 r5 W5) as (a4 & r6 & O4 & -> & W6 & L6); [destruct p4; lia|]. rewrite L6 in L.
  destruct (opt_split pq 2 r6 W6) as (qos & r7 & OQ & -> & W7 & L7); [destruct pq; lia|]. rewrite L7 in L.
  destruct (opt_split ph 4 r7 W7) as (ht & r8 & OH & -> & W8 & L8); [destruct ph; lia|].
  exists (mkDH s b1 d a1 a2 a3 sq a4 qos ht), r8.
  assert (OK : ok_data_header (mkDH s b1 d a1 a2 a3 sq a4 qos ht)).
  { unfold ok_data_header, subtype_number, address, u8, u16.
    cbn [dh_subtype dh_flags dh_duration dh_a1 dh_a2 dh_a3 dh_seq dh_a4 dh_qos dh_ht].
    rewrite ES. repeat split; auto; apply C. }
  split; [exact OK|]. split; [reflexivity|]. split; [exact ES|]. split.
  { unfold enc_data_header_ne. cbn [dh_subtype dh_flags dh_duration dh_a1 dh_a2 dh_a3 dh_seq dh_a4 dh_qos dh_ht]. now rewrite <- !app_assoc. }
  split; [exact W8|].
  assert (LL : length (enc_data_header_ne (mkDH s b1 d a1 a2 a3 sq a4 qos ht)) + 2 =
     24 + (if p4 then 6 else 0) + (if pq then 2 else 0) + (if ph then 4 else 0)).
  { unfold enc_data_header_ne. cbn [dh_subtype dh_flags dh_duration dh_a1 dh_a2 dh_a3 dh_seq dh_a4 dh_qos dh_ht].
    rewrite !app_length, !ne_bytes_length, La1, La2, La3. rewrite app_length in L6, L7, L8. lia. }
  split; [exact LL|].
  assert (B : (b0 + 256 * b1 < 65536)%N) by lia. destruct (fcf_of_bytes b0 b1 H0 H1) as [FF _].
  pose proof (rd_data_header_R _ (b0 + 256 * b1) OK B E FF r8) as R.
  rewrite (two_bytes b0 b1 H0 H1) in R. cbn [app] in R. unfold enc_data_header_ne in R at 1.
  cbn [dh_subtype dh_flags dh_duration dh_a1 dh_a2 dh_a3 dh_seq dh_a4 dh_qos dh_ht] in R. rewrite <- !app_assoc in R.
  rewrite R. do 2 f_equal. cbn [length]. lia.
Qed.
(** anything else is refused *)
Lemma data_header_refuse from : wf_bytes from ->
  (forall b0 b1 rest, from = b0 :: b1 :: rest -> ((b0 / 4) mod 4 <> 2)%N \/ length from < data_header_size b0 b1) ->
  exists e, rd_data_header from = Err e.
Proof.
  intros W K. destruct (rd_data_header from) as [[h n]|e|] eqn:R; [|eauto|now apply rd_data_header_NP in R].
  exfalso. unfold rd_data_header in R.
  destruct (gread (rd_le 2) from 0) as [[f o]| |] eqn:G; try discriminate. cbn [rbind] in R.
  apply gread_inv in G as (_ & k & G & ->). cbn [skipn] in G. unfold rd_le in G.
  destruct (Nat.ltb_spec (length from) 2) as [|L2]; try discriminate. injection G as <- <-.
  destruct from as [|b0 [|b1 rest]]; try (cbn in L2; lia). cbn [firstn le_val] in R.
  replace (b0 + 256 * (b1 + 256 * 0))%N with (b0 + 256 * b1)%N in R by lia.
  specialize (K b0 b1 rest eq_refl).
  apply wf_bytes_cons in W as [H0 W]. apply wf_bytes_cons in W as [H1 W].
  destruct (fcf_of_bytes b0 b1 H0 H1) as [FF ET].
  assert (B : (b0 + 256 * b1 < 65536)%N) by lia. pose proof (fcf_parsed_canonical _ B) as C.
  destruct (fcf_frame_type (b0 + 256 * b1)) as [s|s|s|s]; try discriminate. cbn [spec_type_of] in ET. injection ET as T ES.
  destruct K as [K|K]; [apply K; now rewrite <- T|].
  destruct (flag_bits b1) as (Ft & Ff & Fo & _). destruct (data_subtype_std _ C) as [EQ _].
  rewrite FF, Ft, Ff, Fo, EQ, ES in R. unfold rd_opt in R. unfold data_header_size in K. cbn [length] in *.
  destruct (N.testbit b1 0 && N.testbit b1 1), (std_is_qos ((b0 / 16) mod 16)), (N.testbit b1 7);
    rinv R; cbn [rbind] in R; rinv R; cbn [rbind] in R; rinv R; cbn [rbind] in R; rinv R; cbn [length] in *; lia.
Qed.

(** ** Frames *)
Lemma rd_data_enc h body fcs : native_le = true -> ok_data_header h -> wf_bytes body ->
  pread (rd_data fcs) (enc_frame fcs (enc_data h body)) 0
  = Ok (h, if std_has_payload (subtype_number h) then Some body else None).
Proof.
  intros NL H W. destruct (data_fcf_ok h H) as (x & _ & B & FB & T & FF). pose proof H as (C & _).
  destruct (data_subtype_std _ C) as [_ HP].
  assert (NM : enc_frame fcs (enc_data h body) <> []).
  { apply nonempty_length. rewrite enc_frame_length, enc_data_length by exact H. unfold dh_length. lia. }
  rewrite (pread0 _ _ NM). unfold rd_data. rewrite strip_frame by now apply enc_data_wf. cbn [rbind].
  assert (E : gread rd_data_header (enc_data h body) 0 = Ok (h, length (le_bytes 2 x ++ enc_data_header h))).
  { unfold gread. rewrite end_bad_lt by (rewrite enc_data_length by exact H; unfold dh_length; lia). cbn [skipn].
    unfold enc_data. rewrite <- FB, app_assoc. rewrite <- (enc_ne_le h NL). now rewrite (rd_data_header_R h x H B T FF body). }
  rewrite E. cbn [rbind]. rewrite HP. fold (subtype_number h). destruct (std_has_payload (subtype_number h)); [|reflexivity].
  unfold enc_data. rewrite <- FB, app_assoc.
  rewrite slice_from_ok by (rewrite !app_length; lia). cbn [rbind]. now rewrite skipn_app_exact.
Qed.
Theorem data_round_trip h p body fcs : ok_data_header h -> payload_ok h p body ->
  let frame := enc_frame fcs (enc_data h body) in
  Writes (wr_data (h, p) fcs) frame /\
  (fcs = true \/ (match p with Some c => body <> [] /\ WritesT (c_write c) body | None => True end) -> WritesT (wr_data (h, p) fcs) frame) /\
  (native_le = true -> pread (rd_data fcs) frame 0 = Ok (h, match p with Some _ => Some body | None => None end)).
Proof.
  intros H P frame. destruct (wr_data_W h p body fcs H P) as [W T]. split; [exact W|]. split; [exact T|].
  intros NL. unfold frame. rewrite rd_data_enc; auto.
  - destruct p; cbn [payload_ok] in P; destruct P as [-> _]; reflexivity.
  - destruct p; cbn [payload_ok] in P; [tauto|]. destruct P as [_ ->]. constructor.
Qed.
Lemma data_measures h p body fcs : ok_data_header h ->
  match p with Some c => c_measure c = length body | None => body = [] end ->
  data_measure (h, p) fcs = length (enc_frame fcs (enc_data h body)).
Proof.
  intros H P. rewrite enc_frame_length, enc_data_length by exact H. unfold data_measure. cbn [fst snd].
  destruct p; [rewrite P|subst body; cbn [length]]; destruct fcs; lia.
Qed.
(** which byte strings are frames, and what is read *)
Lemma rd_data_spec bs : wf_bytes bs -> native_le = true ->
  match rd_data false bs with
  | Ok ((h, p), n) => exists b0 body, ok_data_header h /\ (b0 < 256)%N /\ ((b0 / 4) mod 4 = 2)%N /\
      subtype_number h = ((b0 / 16) mod 16)%N /\
      bs = [b0; dh_flags h] ++ enc_data_header h ++ body /\ n = dh_length h /\
      p = if std_has_payload (subtype_number h) then Some body else None
  | Err _ => forall b0 b1 rest, bs = b0 :: b1 :: rest -> ((b0 / 4) mod 4 <> 2)%N \/ length bs < data_header_size b0 b1
  | Panic => False
  end.
Proof.
  intros W NL. unfold rd_data. cbn [rbind].
  assert (X : {exists b0 b1 rest, bs = b0 :: b1 :: rest /\ ((b0 / 4) mod 4 = 2)%N /\ data_header_size b0 b1 <= length bs} +
    {forall b0 b1 rest, bs = b0 :: b1 :: rest -> ((b0 / 4) mod 4 <> 2)%N \/ length bs < data_header_size b0 b1}).
  { destruct bs as [|b0 [|b1 rest]]; [right; discriminate|right; discriminate|].
    destruct (N.eq_dec ((b0 / 4) mod 4) 2) as [T|T].
    - destruct (le_lt_dec (data_header_size b0 b1) (length (b0 :: b1 :: rest))) as [L|L]; [left; eauto 6|right].
      intros c0 c1 r [= <- <- <-]. now right.
    - right. intros c0 c1 r [= <- <- <-]. now left. }
  destruct X as [(b0 & b1 & rest & E & T & L)|X].
  - rewrite E in W, L. destruct (data_header_accept b0 b1 rest W T L) as (h & tail & H & F & SN & R & Wt & Ln & RD).
    rewrite (enc_ne_le h NL) in *. pose proof (enc_data_header_length h H) as HL.
    unfold gread. rewrite end_bad_lt by (rewrite E; cbn; lia). cbn [skipn]. rewrite E, RD. cbn [rbind Nat.add].
    pose proof H as (C & _). destruct (data_subtype_std _ C) as [_ HP]. rewrite HP. fold (subtype_number h).
    apply wf_bytes_cons in W as [H0 _].
    assert (SL : slice_from (b0 :: b1 :: rest) (length (enc_data_header h) + 2) = @Ok serr _ tail).
    { rewrite slice_from_ok by lia. rewrite R. f_equal.
      replace (length (enc_data_header h) + 2) with (S (S (length (enc_data_header h)))) by lia. cbn [skipn]. now apply skipn_app_exact. }
    destruct (std_has_payload (subtype_number h)) eqn:SP.
    + rewrite SL. cbn [rbind]. exists b0, tail. split; [exact H|]. split; [exact H0|]. split; [exact T|]. split; [exact SN|].
      split; [subst b1; rewrite R; reflexivity|]. split; [lia|now rewrite SP].
    + exists b0, tail. split; [exact H|]. split; [exact H0|]. split; [exact T|]. split; [exact SN|].
      split; [subst b1; rewrite R; reflexivity|]. split; [lia|now rewrite SP].
  - unfold gread. destruct (end_bad 0 (length bs)); cbn [rbind]; [exact X|]. cbn [skipn].
    destruct (data_header_refuse bs W X) as [e ->]. exact X.
Qed.
Lemma rd_data_NP : NoPanic (rd_data false).
Proof.
  intros from. unfold rd_data. cbn [rbind].
  destruct (gread rd_data_header from 0) as [[h o]| |] eqn:G; cbn [rbind]; [|discriminate|apply gread_no_panic in G; [tauto|apply rd_data_header_NP]].
  apply gread_bounds in G; [|apply rd_data_header_IB].
  destruct (data_has_payload _); [|discriminate]. rewrite slice_from_ok by apply G. discriminate.
Qed.
Lemma rd_data_fcs bs : rd_data true bs = (body <- strip_and_validate_fcs bs ;; rd_data false body).
Proof. reflexivity. Qed.
Lemma rd_data_fcs_panic bs : wf_bytes bs -> (rd_data true bs = Panic <-> length bs < 4).
Proof.
  intros W. pose proof (strip_fcs_spec bs W) as [_ S]. rewrite rd_data_fcs.
  destruct (strip_and_validate_fcs bs) as [p| |] eqn:E; cbn [rbind].
  - split; [intros X; now apply rd_data_NP in X|]. intros L. apply S in L. discriminate.
  - split; [discriminate|]. intros L. apply S in L. discriminate.
  - split; [intros _; now apply S|reflexivity].
Qed.
End Facts.

(** ** Address roles *)
Lemma roles h : is_amsdu h = std_amsdu h ->
  let to := N.testbit (dh_flags h) 0 in let from := N.testbit (dh_flags h) 1 in let am := std_amsdu h in
  receiver_address h = dh_a1 h /\ transmitter_address h = dh_a2 h /\
  destination_address h = role (std_da to from am) h /\ source_address h = role (std_sa to from am) h /\
  (to && from = false -> bssid h = role (std_bssid to from am) h).
Proof.
  intros AM. cbv zeta. destruct (flag_bits (dh_flags h)) as (Ft & Ff & _).
  unfold destination_address, source_address, bssid. rewrite Ft, Ff, AM.
  destruct (N.testbit (dh_flags h) 0), (N.testbit (dh_flags h) 1), (std_amsdu h); cbn; repeat split; auto; discriminate.
Qed.
Lemma roles_mut h a : is_amsdu h = std_amsdu h ->
  let to := N.testbit (dh_flags h) 0 in let from := N.testbit (dh_flags h) 1 in let am := std_amsdu h in
  (match destination_address_mut h a, std_da to from am with
   | Some h', Some f => stored f a h h' | None, None => True | _, _ => False end) /\
  (match source_address_mut h a, std_sa to from am with
   | Some h', Some f => field f h <> None /\ stored f a h h' | None, Some f => field f h = None | None, None => True | _, _ => False end) /\
  (am = false -> match bssid_mut h a, bssid h with
   | Some h', Some _ => exists f, stored f a h h' /\ bssid h = field f h | None, None => True | _, _ => False end).
Proof.
  intros AM. cbv zeta. destruct (flag_bits (dh_flags h)) as (Ft & Ff & _).
  unfold destination_address_mut, source_address_mut, bssid_mut, bssid. rewrite Ft, Ff, AM.
  assert (S1 : stored A1 a h (set_a1 a h)) by (repeat split; intros []; cbn; congruence).
  assert (S2 : stored A2 a h (set_a2 a h)) by (repeat split; intros []; cbn; congruence).
  assert (S3 : stored A3 a h (set_a3 a h)) by (repeat split; intros []; cbn; congruence).
  assert (S4 : stored A4 a h (set_a4 (Some a) h)) by (repeat split; intros []; cbn; congruence).
  destruct (N.testbit (dh_flags h) 0), (N.testbit (dh_flags h) 1), (std_amsdu h); cbn -[stored];
    (split; [auto|split; [|intros Z; try discriminate; eauto]]); auto; try (split; [discriminate|auto]).
  destruct (dh_a4 h); cbn -[stored]; auto. split; [discriminate|auto].
Qed.
