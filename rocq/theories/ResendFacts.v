From Verif Require Import Base BaseFacts SpecBase Utf8 Utf8Facts Elements SpecElements ElementsFacts ElementTypes SpecElementTypes ElementTypesFacts
  ElementTypesFacts2 ElementTypesFacts3 SpecResend Tim SpecTim TimFacts TimFacts2.

Section Facts.
Context {cfg : Cfg}.

Lemma fixed_resent {A} (t : ElementType A A) id size ok enc : 0 < size -> FixedLayout t id size ok any_bytes enc -> Resent t (fun x => x) (firstn size).
Proof.
  intros P F bs x n W _ E.
  assert (L : size <= length bs).
  { destruct (le_lt_dec size (length bs)) as [L|L]; [exact L|]. destruct (fl_short _ _ _ _ _ _ F bs L) as [e X]. congruence. }
  assert (LF : length (firstn size bs) = size) by (rewrite firstn_length; lia).
  destruct (fl_read _ _ _ _ _ _ F (firstn size bs)) as (w & O & Ew); [now apply wf_firstn|exact LF|exact I|].
  destruct (fl_write _ _ _ _ _ _ F w O) as (We & Le & _ & Ww & R). rewrite Ew in *.
  pose proof (R (skipn size bs)) as R1. rewrite firstn_skipn, E in R1. injection R1 as -> ->.
  repeat split; auto; try lia.
  - intros X. rewrite X in LF. cbn in LF. lia.
  - apply Ww.
  - apply Ww.
  - now rewrite (fl_size _ _ _ _ _ _ F), LF.
  - specialize (R []). rewrite app_nil_r in R. eauto.
Qed.
Lemma ssid_resent t : t = SSIDElement \/ t = MeshIDElement -> Resent t (fun x => x) all_of.
Proof.
  intros T bs x n W _ E. assert (E' : rd_ssid bs = Ok (x, n)) by (destruct T; subst t; exact E).
  apply rd_ssid_spec in E' as (-> & -> & L & U). unfold all_of.
  split; [exact W|]. split; [lia|]. split; [auto|]. split; [destruct T; subst t; apply pwrite0_W, wr_bytes_W|].
  split; [destruct T; subst t; reflexivity|]. exists (length bs). destruct T; subst t; exact E.
Qed.
Lemma u8s_W bs : wf_bytes bs -> Writes (wseq (map wr_u8 bs)) bs.
Proof.
  intros W. eapply Writes_eq; [apply wseq_W with (bss := map (fun b => [b]) bs)|].
  - induction W as [|b bs B _ IH]; cbn; constructor; [now apply wr_u8_small|exact IH].
  - clear W. induction bs as [|b bs IH]; cbn; [reflexivity|now rewrite IH].
Qed.
Lemma rates_resent : Resent SupportedRatesElement (fun l => l) all_of.
Proof.
  intros bs x n W _ E. cbn [et_read SupportedRatesElement] in E. unfold rd_supported_rates in E.
  destruct (Nat.ltb_spec 8 (length bs)) as [L|L]; [discriminate|]. injection E as <- <-. unfold all_of.
  split; [exact W|]. split; [lia|]. split; [auto|]. split; [|split; [reflexivity|]].
  - cbn [et_write SupportedRatesElement]. unfold wr_supported_rates. rewrite firstn_all2 by exact L. now apply u8s_W.
  - cbn [et_read SupportedRatesElement]. unfold rd_supported_rates. destruct (Nat.ltb_spec 8 (length bs)); [lia|]. eauto.
Qed.
Lemma extended_rates_resent : Resent ExtendedSupportedRatesElement (fun l => l) all_of.
Proof.
  intros bs x n W L E. cbn [et_read ExtendedSupportedRatesElement] in E. unfold rd_extended_supported_rates in E.
  destruct (Nat.ltb_spec 255 (length bs)) as [L'|_]; [lia|]. injection E as <- <-. unfold all_of.
  split; [exact W|]. split; [lia|]. split; [auto|]. split; [|split; [reflexivity|]].
  - now apply u8s_W.
  - cbn [et_read ExtendedSupportedRatesElement]. unfold rd_extended_supported_rates. destruct (Nat.ltb_spec 255 (length bs)); [lia|]. eauto.
Qed.
Lemma vendor_resent : Resent VendorSpecificElement (fun x => x) all_of.
Proof.
  intros bs x n W _ E. cbn in E. injection E as <- <-. unfold all_of. split; [exact W|]. split; [lia|]. split; [auto|].
  split; [|split; [reflexivity|exists (length bs); reflexivity]].
  cbn [et_write VendorSpecificElement]. eapply Writes_eq; [apply wseq_W; constructor; [apply wr_bytes_W|constructor]|]. cbn [concat]. apply app_nil_r.
Qed.
Lemma short_gread {A} (r : reader A) k from : (forall q, length q < k -> exists e, r q = Err e) -> length from < k -> exists e, gread r from 0 = Err e.
Proof. intros H L. unfold gread. destruct (end_bad _ _); [eauto|]. cbn [skipn]. destruct (H from L) as [e ->]. eauto. Qed.
Lemma rd_le_short k q : length q < k -> exists e, rd_le k q = Err e.
Proof. intros L. unfold rd_le. destruct (Nat.ltb_spec (length q) k); [eauto|lia]. Qed.
Lemma gtk_resent : Resent GtkKde (fun x => x) all_of.
Proof.
  intros bs x n W _ E. cbn [et_read GtkKde] in E. unfold all_of.
  destruct (le_lt_dec 2 (length bs)) as [L|L].
  - destruct (split_le 2 bs W L) as (i & k & Hi & -> & Wk & _).
    assert (R : rd_gtk (le_bytes 2 i ++ k) = Ok (mkGtk i k, length (le_bytes 2 i ++ k))).
    { unfold rd_gtk. pose proof (At_start (le_bytes 2 i ++ k)) as A. rstep A.
      rewrite slice_from_ok by (rewrite app_length, le_bytes_length; lia). cbn [rbind]. destruct A as [A _]. rewrite A. reflexivity. }
    rewrite E in R. injection R as -> ->.
    split; [exact W|]. split; [lia|]. split; [auto|]. split; [|split; [reflexivity|eauto]].
    cbn [et_write GtkKde]. unfold wr_gtk. projs. writes_seq.
  - exfalso. unfold rd_gtk in E. destruct (short_gread (rd_le 2) 2 bs (rd_le_short 2) L) as [e X]. rewrite X in E. discriminate.
Qed.
Lemma peering_resent : Resent MeshPeeringElement (fun x => x) all_of.
Proof.
  intros bs x n W _ E. cbn [et_read MeshPeeringElement] in E. unfold all_of.
  destruct (rd_peering_cases bs W) as (A & B & C).
  destruct (le_lt_dec 4 (length bs)) as [L|L]; [|destruct (A L) as [e X]; congruence].
  destruct (le_lt_dec (length bs) 24) as [L'|L']; [|rewrite (C L') in E; discriminate].
  destruct (B (conj L L')) as (p & l & rest & y & Op & Hl & P & Eb & R). rewrite E in R. injection R as -> ->.
  assert (Lr : length rest <= 20) by (rewrite Eb in L'; unfold enc_peering in L'; rewrite !app_length, !int16_length in L'; lia).
  split; [exact W|]. split; [lia|]. split; [auto|]. split; [|split].
  - rewrite Eb. cbn [et_write MeshPeeringElement]. now apply wr_peering_W.
  - rewrite Eb, P. cbn [et_measure MeshPeeringElement mp_rest_len]. unfold enc_peering. rewrite !app_length, !int16_length. reflexivity.
  - eauto.
Qed.
Lemma tim_resent : Resent TIMElement (fun x => x) all_of.
Proof.
  intros bs x n W _ E. cbn [et_read TIMElement] in E. unfold all_of. pose proof E as E0.
  apply rd_tim_spec in E as (c & p & b & Eb & -> & -> & L).
  assert (S : tim_shows (tim_value c p b) c p b).
  { unfold tim_shows, tim_value. cbn [te_count te_period te_bitmap]. destruct b as [[ctl l]|]; cbn; [|auto]. do 3 (split; [reflexivity|]). exists (BSlice l). split; reflexivity. }
  assert (WB : wf_bitmap b /\ (p < 256)%N).
  { rewrite Eb in W. unfold enc_tim in W. inversion W as [|? ? _ W']. inversion W' as [|? ? P W'']. split; [|exact P].
    destruct b as [[ctl bl]|]; [|exact I]. inversion W''. now split. }
  destruct (tim_round_trip _ _ _ _ S (proj1 WB) L (proj2 WB)) as (Ww & _ & _).
  split; [exact W|]. split; [lia|]. split; [auto|]. split; [rewrite Eb; exact Ww|]. split; [|eauto].
  rewrite Eb. apply tim_announces; [exact S|]. destruct b as [[ctl l]|]; exact I.
Qed.
Lemma ht_cap_reserved bs : 26 <= length bs -> rd_ht_cap bs = rd_ht_cap (kept_ht_cap bs ++ skipn 26 bs).
Proof.
  do 26 (destruct bs as [|? bs]; [cbn; intros; lia|]). intros _. destruct cfg as [[] [] []]; reflexivity.
Qed.
Lemma ht_cap_resent : Resent HTCapabilitiesElement (fun x => x) kept_ht_cap.
Proof.
  intros bs x n W _ E.
  pose proof (@ht_cap_fixed cfg) as F.
  assert (L : 26 <= length bs).
  { destruct (le_lt_dec 26 (length bs)) as [L|L]; [exact L|]. destruct (fl_short _ _ _ _ _ _ F bs L) as [e X]. congruence. }
  assert (LF : length (kept_ht_cap bs) = 26).
  { unfold kept_ht_cap. rewrite !app_length, !firstn_length, skipn_length. cbn [length]. lia. }
  assert (WF : wf_bytes (kept_ht_cap bs)).
  { unfold kept_ht_cap, wf_bytes. rewrite !Forall_app. split; [now apply wf_firstn|]. split; [repeat constructor; reflexivity|].
    now apply wf_firstn, wf_skipn. }
  destruct (fl_read _ _ _ _ _ _ F (kept_ht_cap bs)) as (w & O & Ew); [exact WF|exact LF| |].
  { unfold canon_ht_cap, kept_ht_cap. rewrite skipn_app_exact by (rewrite firstn_length; lia). reflexivity. }
  destruct (fl_write _ _ _ _ _ _ F w O) as (We & Le & _ & Ww & R). rewrite Ew in *.
  pose proof (R (skipn 26 bs)) as R1. cbn [et_read HTCapabilitiesElement] in E, R1. rewrite <- ht_cap_reserved, E in R1 by exact L. injection R1 as -> ->.
  split; [exact WF|]. split; [lia|]. split; [intros X; rewrite X in LF; discriminate|]. split; [exact Ww|].
  split; [now rewrite LF|]. specialize (R []). rewrite app_nil_r in R. eauto.
Qed.
End Facts.
