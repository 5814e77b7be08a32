(** Proofs about writing A-MSDUs into buffers of any size. *)
From Verif Require Import Base BaseFacts Bits Layouts BitsFacts Enums EnumsFacts Common SpecBase SpecCommon CommonFacts Crc CrcFacts
  Elements ElementsFacts ElementTypes SpecElementTypes ElementTypesFacts StepsFacts Mgmt SpecMgmt MgmtFacts
  CryptoHeader Amsdu Data SpecData DataFacts DataFacts2 DataFacts3 SpecAmsdu.

Lemma reach_cons s l : l <> [] -> reach (s :: l) = length (enc_sub s) + pad_length (length (enc_sub s)) + reach l.
Proof. destruct l; [congruence|reflexivity]. Qed.
Lemma reach_pos l : Forall ok_sub l -> l <> [] -> 14 <= reach l.
Proof.
  intros F. induction F as [|s l H F IH]; [congruence|]. intros _. destruct l as [|s' l].
  - cbn [reach]. rewrite enc_sub_length by exact H. lia.
  - rewrite reach_cons by discriminate. specialize (IH ltac:(discriminate)). lia.
Qed.
Lemma reach_padded l : l <> [] -> reach l <= padded_length l < reach l + 4.
Proof.
  induction l as [|s l IH]; [congruence|]. intros _. rewrite padded_cons. destruct l as [|s' l].
  - cbn [reach]. change (padded_length []) with 0. unfold pad_length. lia.
  - rewrite reach_cons by discriminate. specialize (IH ltac:(discriminate)). lia.
Qed.

Section Facts.
Context {cfg : Cfg}.
Lemma sub_raw w s : sub_writes w s ->
  Writes (wseq [wr_bytes (sf_da w); wr_bytes (sf_sa w); wr_le 2 (N.of_nat (c_measure (sf_payload w))); c_write (sf_payload w)]) (enc_sub s).
Proof.
  intros (OK & Ed & Es & W & M). rewrite Ed, Es, M. unfold enc_sub.
  eapply Writes_eq; [apply wseq_W; do 3 (constructor; [apply wr_bytes_W|]); constructor; [exact W|constructor]|].
  cbn [concat]. now rewrite app_nil_r.
Qed.
Lemma sub_ok w s buf : sub_writes w s -> length (enc_sub s) + slack <= length buf ->
  wr_subframe w buf = Ok (enc_sub s ++ skipn (length (enc_sub s)) buf, length (enc_sub s) + pad_length (length (enc_sub s))).
Proof. intros S L. unfold wr_subframe. rewrite (writes_ok _ _ (sub_raw w s S)) by exact L. cbn [rbind]. now rewrite round4_pad. Qed.
Lemma sub_cases_any w s buf : sub_writes w s ->
  (length (enc_sub s) <= length buf /\ wr_subframe w buf = Ok (enc_sub s ++ skipn (length (enc_sub s)) buf, length (enc_sub s) + pad_length (length (enc_sub s)))) \/
  exists e, wr_subframe w buf = Err e.
Proof.
  intros S. unfold wr_subframe. destruct (writes_any _ _ (sub_raw w s S) buf) as [[L E]|[e E]]; rewrite E; cbn [rbind]; [left|right; eauto].
  now rewrite round4_pad.
Qed.
(** what is left over of a buffer cut off by the padding of the last subframe is completed by whatever follows *)
Definition holds (l : list (AMSDUSubframe bytes)) (buf buf' : bytes) : Prop :=
  length buf' = length buf /\ forall tail, padded_length l <= length (buf' ++ tail) -> amsdu_bytes l (firstn (padded_length l) (buf' ++ tail)).
Lemma amsdu_from_any ws l : Forall2 sub_writes ws l -> forall p buf, l <> [] -> reach l + slack <= length buf ->
  exists buf', holds l buf buf' /\ wseq_from (map wr_subframe ws) (p ++ buf) (length p) = Ok (p ++ buf', length p + padded_length l) /\
    skipn (padded_length l) buf' = skipn (padded_length l) buf.
Proof.
  induction 1 as [|w s ws l S F IH]; intros p buf NE L; [congruence|]. cbn [map wseq_from].
  assert (OK : ok_sub s) by apply S. pose proof (enc_sub_length s OK) as Ls.
  assert (Ok1 : length (enc_sub s) + slack <= length buf).
  { destruct l as [|s' l]; [exact L|]. rewrite reach_cons in L by discriminate. lia. }
  unfold gwrite at 1. rewrite end_bad_lt by (rewrite app_length; lia). rewrite skipn_app_exact by reflexivity.
  rewrite (sub_ok w s buf S Ok1). cbn [rbind]. rewrite firstn_app_exact by reflexivity.
  set (k := length (enc_sub s)) in *. set (d := pad_length k) in *.
  destruct l as [|s' l].
  - inversion F; subst. cbn [map wseq_from]. exists (enc_sub s ++ skipn k buf).
    assert (PL : padded_length [s] = k + d) by (rewrite padded_cons; change (padded_length []) with 0; fold k; fold d; lia).
    assert (LB : length (enc_sub s ++ skipn k buf) = length buf) by (rewrite app_length, skipn_length; fold k; lia).
    split; [split; [exact LB|]|].
    + intros tail Lt. rewrite PL in *. rewrite <- app_assoc in *. rewrite firstn_app. fold k. rewrite firstn_all2 by (fold k; lia).
      replace (k + d - k) with d by lia. set (pad := firstn d (skipn k buf ++ tail)).
      assert (Lp : length pad = d) by (unfold pad; rewrite firstn_length; rewrite app_length in Lt; fold k in Lt; lia).
      rewrite <- (app_nil_r pad). apply amsdu_cons; [exact OK|exact Lp|constructor].
    + split; [rewrite PL; reflexivity|]. rewrite PL. rewrite <- (skipn_skipn_add (enc_sub s ++ skipn k buf) d k). rewrite skipn_app_exact by reflexivity. now rewrite skipn_skipn_add.
  - rewrite reach_cons in L by discriminate. fold k in L. fold d in L.
    assert (Lb2 : reach (s' :: l) + slack <= length (skipn (k + d) buf)) by (rewrite skipn_length; lia).
    destruct (IH (p ++ enc_sub s ++ firstn d (skipn k buf)) (skipn (k + d) buf)) as (b2 & (A2 & C2) & D2 & T2); [discriminate|exact Lb2|].
    assert (Ld : length (firstn d (skipn k buf)) = d) by (rewrite firstn_length, skipn_length; lia).
    assert (EB : p ++ enc_sub s ++ skipn k buf = (p ++ enc_sub s ++ firstn d (skipn k buf)) ++ skipn (k + d) buf).
    { rewrite <- !app_assoc. do 2 f_equal. rewrite <- (firstn_skipn d (skipn k buf)) at 1. f_equal. now rewrite skipn_skipn_add. }
    rewrite EB. assert (EL : length p + (k + d) = length (p ++ enc_sub s ++ firstn d (skipn k buf))) by (rewrite !app_length, Ld; reflexivity).
    rewrite EL, D2. set (pad := firstn d (skipn k buf)) in *.
    exists (enc_sub s ++ pad ++ b2). unfold holds. rewrite padded_cons. fold k. fold d.
    split; [split|].
    + rewrite !app_length, Ld, A2, skipn_length. fold k. lia.
    + intros tail Lt. rewrite <- !app_assoc.
      assert (FE : firstn (k + d + padded_length (s' :: l)) (enc_sub s ++ pad ++ b2 ++ tail) = enc_sub s ++ pad ++ firstn (padded_length (s' :: l)) (b2 ++ tail)).
      { rewrite firstn_app. fold k. rewrite firstn_all2 by (fold k; lia). f_equal. rewrite firstn_app, Ld. rewrite firstn_all2 by lia. f_equal. f_equal. lia. }
      rewrite FE. apply amsdu_cons; [exact OK|exact Ld|]. apply C2. rewrite !app_length, Ld in Lt. fold k in Lt. rewrite app_length. lia.
    + split.
      * rewrite <- !app_assoc. do 2 f_equal. rewrite !app_length, Ld. fold k. lia.
      * rewrite <- (skipn_skipn_add (enc_sub s ++ pad ++ b2) (padded_length (s' :: l)) (k + d)). rewrite app_assoc. rewrite skipn_app_exact by (rewrite app_length, Ld; reflexivity).
        rewrite T2. now rewrite skipn_skipn_add.
Qed.
Lemma amsdu_from_short ws l : Forall2 sub_writes ws l -> forall p buf, length buf < reach l ->
  exists e, wseq_from (map wr_subframe ws) (p ++ buf) (length p) = Err e.
Proof.
  induction 1 as [|w s ws l S F IH]; intros p buf L; [cbn in L; lia|]. cbn [map wseq_from].
  unfold gwrite. destruct (end_bad _ _); [cbn [rbind]; eauto|]. rewrite skipn_app_exact by reflexivity.
  destruct (sub_cases_any w s buf S) as [[Lk E]|[e E]]; rewrite E; cbn [rbind]; [|eauto]. rewrite firstn_app_exact by reflexivity.
  set (k := length (enc_sub s)) in *. set (d := pad_length k) in *.
  destruct l as [|s' l]; [cbn [reach] in L; fold k in L; lia|]. rewrite reach_cons in L by discriminate. fold k in L. fold d in L.
  destruct (le_lt_dec (k + d) (length buf)) as [K|K].
  - assert (Ld : length (firstn d (skipn k buf)) = d) by (rewrite firstn_length, skipn_length; lia).
    assert (EB : p ++ enc_sub s ++ skipn k buf = (p ++ enc_sub s ++ firstn d (skipn k buf)) ++ skipn (k + d) buf).
    { rewrite <- !app_assoc. do 2 f_equal. rewrite <- (firstn_skipn d (skipn k buf)) at 1. f_equal. now rewrite skipn_skipn_add. }
    rewrite EB. assert (EL : length p + (k + d) = length (p ++ enc_sub s ++ firstn d (skipn k buf))) by (rewrite !app_length, Ld; reflexivity).
    rewrite EL. apply IH. rewrite skipn_length. lia.
  - inversion F; subst. cbn [map wseq_from]. unfold gwrite. rewrite end_bad_gt; [cbn [rbind]; eauto|]. rewrite !app_length, skipn_length. fold k. lia.
Qed.
(** the A-MSDU alone *)
Lemma amsdu_any ws l buf : Forall2 sub_writes ws l -> l <> [] ->
  (length buf < reach l -> exists e, c_write (c_amsdu ws) buf = Err e) /\
  (reach l + slack <= length buf -> exists buf', c_write (c_amsdu ws) buf = Ok (buf', padded_length l) /\ length buf' = length buf /\
     skipn (padded_length l) buf' = skipn (padded_length l) buf /\
     forall tail, padded_length l <= length (buf' ++ tail) -> amsdu_bytes l (firstn (padded_length l) (buf' ++ tail))).
Proof.
  intros F NE. cbn [c_write c_amsdu]. unfold wseq. split; intros L.
  - apply (amsdu_from_short ws l F [] buf L).
  - destruct (amsdu_from_any ws l F [] buf NE L) as (buf' & (A & C) & D & T). exists buf'. cbn [app length Nat.add] in D. auto.
Qed.
(** a data frame with it *)
Lemma amsdu_frame_any h ws l buf (fcs : bool) : ok_data_header h -> Forall2 sub_writes ws l -> l <> [] ->
  let w := wr_data (h, Some (c_amsdu ws)) fcs buf in let n := dh_length h + padded_length l in
  (length buf < dh_length h + reach l -> exists e, w = Err e) /\
  (dh_length h + reach l + slack <= length buf -> length buf < n ->
     if fcs then w = Panic else exists buf', w = Ok (buf', n) /\ length buf' = length buf) /\
  (n + slack <= length buf -> if fcs && (length buf <? n + 4) then exists e, w = Err e else exists buf', w = Ok (buf', n + if fcs then 4 else 0)).
Proof.
  intros H F NE. cbv zeta. destruct (data_fcf_ok h H) as (x & E & B & FB & _).
  assert (WH : WritesT (wseq [wr_le 2 x; wr_data_header h]) (le_bytes 2 x ++ enc_data_header h)).
  { pose proof (wseq_T [wr_le 2 x] [le_bytes 2 x] (wr_data_header h) (enc_data_header h)) as T. cbn [concat app] in T. rewrite app_nil_r in T. apply T.
    - constructor; [apply wr_bytes_W|constructor].
    - apply (wr_data_header_T h H).
    - intros Z. apply (f_equal (@length N)) in Z. pose proof (enc_data_header_length h H) as Y. rewrite Z in Y. unfold dh_length in Y. cbn [length] in Y. lia. }
  set (hd := le_bytes 2 x ++ enc_data_header h) in *.
  assert (LH : length hd = dh_length h).
  { unfold hd. rewrite app_length, le_bytes_length. pose proof (enc_data_header_length h H). lia. }
  rewrite <- LH. clear LH.
  assert (OKS : Forall ok_sub l) by (clear - F; induction F as [|? ? ? ? S]; constructor; [apply S|assumption]).
  pose proof (reach_pos l OKS NE) as RP. pose proof (reach_padded l NE) as PP.
  assert (U : forall k, wr_data (h, Some (c_amsdu ws)) fcs buf = k <->
    ('(buf, off) <- wseq [wr_le 2 x; wr_data_header h] buf ;; '(buf, off) <- gwrite (c_write (c_amsdu ws)) buf off ;;
     if fcs then attach_fcs buf off else Ok (buf, off)) = k).
  { intros k. unfold wr_data. cbn [fst snd]. rewrite E. cbn [rbind]. tauto. }
  assert (Z : forall k, ('(buf, off) <- gwrite (c_write (c_amsdu ws)) (hd ++ skipn (length hd) buf) (length hd) ;; if fcs then attach_fcs buf off else Ok (buf, off)) = k ->
     length hd <= length buf -> wr_data (h, Some (c_amsdu ws)) fcs buf = k).
  { intros k K L. apply U. rewrite (proj2 WH) by exact L. cbn [rbind]. exact K. }
  split; [|split].
  - intros L. destruct (writes_any _ _ (proj1 WH) buf) as [[L1 E1]|[e E1]]; [|exists e; apply U; rewrite E1; reflexivity].
    assert (X : exists e, gwrite (c_write (c_amsdu ws)) (hd ++ skipn (length hd) buf) (length hd) = Err e).
    { unfold gwrite. destruct (end_bad _ _); [eauto|]. rewrite skipn_app_exact by reflexivity.
      destruct (proj1 (amsdu_any ws l (skipn (length hd) buf) F NE)) as [e X]; [rewrite skipn_length; lia|]. rewrite X. eauto. }
    destruct X as [e X]. exists e. apply Z; [|exact L1]. now rewrite X.
  - intros L1 L2. destruct (proj2 (amsdu_any ws l (skipn (length hd) buf) F NE)) as (b & X & Lb & _); [rewrite skipn_length; lia|].
    assert (G : gwrite (c_write (c_amsdu ws)) (hd ++ skipn (length hd) buf) (length hd) = Ok (hd ++ b, length hd + padded_length l)).
    { unfold gwrite. rewrite end_bad_lt by (rewrite app_length, skipn_length; lia). rewrite skipn_app_exact by reflexivity. rewrite X. now rewrite firstn_app_exact by reflexivity. }
    assert (LB : length (hd ++ b) = length buf) by (rewrite app_length, Lb, skipn_length; lia).
    destruct fcs.
    + apply Z; [|lia]. rewrite G. cbn [rbind]. unfold attach_fcs, slice_to. rewrite LB. rewrite (proj2 (Nat.leb_gt _ _)) by lia. reflexivity.
    + exists (hd ++ b). split; [|exact LB]. apply Z; [|lia]. now rewrite G.
  - intros L. destruct (proj2 (amsdu_any ws l (skipn (length hd) buf) F NE)) as (b & X & Lb & _ & C); [rewrite skipn_length; lia|].
    assert (G : gwrite (c_write (c_amsdu ws)) (hd ++ skipn (length hd) buf) (length hd) = Ok (hd ++ b, length hd + padded_length l)).
    { unfold gwrite. rewrite end_bad_lt by (rewrite app_length, skipn_length; lia). rewrite skipn_app_exact by reflexivity. rewrite X. now rewrite firstn_app_exact by reflexivity. }
    assert (LB : length (hd ++ b) = length buf) by (rewrite app_length, Lb, skipn_length; lia).
    destruct fcs; cbn [andb].
    + set (p := firstn (length hd + padded_length l) (hd ++ b)). assert (Lp : length p = length hd + padded_length l) by (unfold p; rewrite firstn_length; lia).
      pose proof (attach_fcs_any p (hd ++ b)) as [Y1 Y2]; [lia|].
      assert (EP : p ++ skipn (length p) (hd ++ b) = hd ++ b) by (rewrite Lp; unfold p; apply firstn_skipn).
      rewrite EP, Lp in *. rewrite LB in *.
      destruct (Nat.ltb_spec (length buf) (length hd + padded_length l + 4)) as [K|K].
      * destruct Y2 as [e Y2]; [lia|]. exists e. apply Z; [|lia]. rewrite G. exact Y2.
      * eexists. apply Z; [|lia]. rewrite G. cbn [rbind]. apply Y1. lia.
    + exists (hd ++ b). apply Z; [|lia]. rewrite G. cbn [rbind]. now rewrite Nat.add_0_r.
Qed.
End Facts.
