(** Proofs: two frames accepted with the same MIC. *)
From Verif Require Import Base BaseFacts SpecBase Bits Enums Common Crc Rsn Eapol SpecEapol KeyMgmt SpecKeyMgmt Data SpecData SpecRsn KeyMgmtFacts4 KeyMgmtFacts5 KeyMgmtFacts6.

Lemma be_bytes_inj n a b : (a < 256 ^ N.of_nat n)%N -> (b < 256 ^ N.of_nat n)%N -> be_bytes n a = be_bytes n b -> a = b.
Proof. intros A B E. rewrite <- (be_val_bytes_small n a A), <- (be_val_bytes_small n b B). now rewrite E. Qed.
Lemma between_skip (b : bytes) i j k : i <= j -> between_bytes b j k = firstn (k - j) (skipn (j - i) (skipn i b)).
Proof. intros L. unfold between_bytes. rewrite skipn_skipn_add. now replace (i + (j - i)) with j by lia. Qed.
Lemma between_in (b : bytes) i j k : i <= j -> j <= k -> between_bytes b j k = skipn (j - i) (between_bytes b i k).
Proof. intros L K. rewrite (between_skip b i j k L). unfold between_bytes. rewrite firstn_skipn_comm. f_equal. f_equal. lia. Qed.
Lemma received_fields_inj (k1 k2 : KeyFrame bytes) r1 r2 : ok_key_frame k1 -> ok_key_frame k2 -> received_fields r1 k1 = received_fields r2 k2 ->
  key_information k1 = key_information k2 /\ key_length k1 = key_length k2 /\ key_replay_counter k1 = key_replay_counter k2 /\
  key_nonce k1 = key_nonce k2 /\ key_iv k1 = key_iv k2 /\ key_rsc k1 = key_rsc k2.
Proof.
  intros (A1 & A2 & A3 & A4 & _ & A5 & A6 & _) (B1 & B2 & B3 & B4 & _ & B5 & B6 & _) E. unfold received_fields in E.
  apply app_inj_len in E as [_ E]; [|reflexivity].
  apply app_inj_len in E as [E1 E]; [|now rewrite !be_bytes_length].
  apply app_inj_len in E as [E2 E]; [|now rewrite !be_bytes_length].
  apply app_inj_len in E as [E3 E]; [|now rewrite !be_bytes_length].
  apply app_inj_len in E as [E4 E]; [|now rewrite A4, B4].
  apply app_inj_len in E as [E5 E]; [|now rewrite !be_bytes_length].
  apply app_inj_len in E as [E6 E]; [|now rewrite !be_bytes_length].
  apply be_bytes_inj in E1, E2, E3, E5, E6; auto.
  repeat split; assumption.
Qed.

Section Facts.
Context {cfg : Cfg} (hmac : bytes -> bytes -> bytes) (wrap : bytes -> bytes -> bytes) (unwrap : bytes -> bytes -> option bytes)
  (HM : hmac_sha1 hmac) (KW : key_wrap wrap unwrap).
Lemma tampered kck kek b1 b2 t1 t2 akm (f1 f2 : bool) (k1 k2 : KeyFrame bytes) : wf_bytes b1 -> wf_bytes b2 ->
  deserialize_eapol hmac unwrap kck kek b1 t1 akm f1 = Ok k1 -> deserialize_eapol hmac unwrap kck kek b2 t2 akm f2 = Ok k2 ->
  has_mic (key_information k1) -> has_mic (key_information k2) -> key_mic k1 = key_mic k2 ->
  k1 = k2 \/ exists key x y, kck = Some key /\ x <> y /\
    firstn (length (key_mic k1)) (hmac key x) = firstn (length (key_mic k1)) (hmac key y).
Proof.
  intros W1 W2 D1 D2 M1 M2 EM.
  destruct (accepted hmac wrap unwrap HM KW _ _ _ _ _ _ _ W1 D1) as (e1 & m1 & v1 & r1 & O1 & KM1 & LM1 & Q1 & _ & L1 & _ & R1 & C1 & I1 & P1 & T1).
  destruct (accepted hmac wrap unwrap HM KW _ _ _ _ _ _ _ W2 D2) as (e2 & m2 & v2 & r2 & O2 & KM2 & LM2 & Q2 & _ & L2 & _ & R2 & C2 & I2 & P2 & T2).
  set (c1 := if f1 then firstn (length b1 - 4) b1 else b1) in *. set (c2 := if f2 then firstn (length b2 - 4) b2 else b2) in *.
  assert (m2 = m1) as -> by congruence. clear KM2.
  assert (X1 : has_mic (info_at c1 e1)) by now rewrite <- I1. assert (X2 : has_mic (info_at c2 e2)) by now rewrite <- I2.
  destruct (P1 X1) as (key & K & _ & _ & Y1). destruct (P2 X2) as (key2 & K2 & _ & _ & Y2).
  assert (key2 = key) as -> by congruence.
  set (x := between_bytes c1 e1 (e1 + 81) ++ repeat 0%N m1 ++ skipn (e1 + 81 + m1) c1) in *.
  set (y := between_bytes c2 e2 (e2 + 81) ++ repeat 0%N m1 ++ skipn (e2 + 81 + m1) c2) in *.
  destruct (list_eq_dec N.eq_dec x y) as [E|E].
  - left. unfold x, y in E. apply app_inj_len in E as [E1 E]; [|unfold between_bytes; rewrite !firstn_length, !skipn_length; lia].
    apply app_inv_head in E.
    assert (F : received_fields r1 k1 = received_fields r2 k2).
    { rewrite <- R1, <- R2. rewrite (between_in c1 e1), (between_in c2 e2) by lia. rewrite E1. f_equal. lia. }
    destruct (received_fields_inj k1 k2 r1 r2 Q1 Q2 F) as (G1 & G2 & G3 & G4 & G5 & G6).
    assert (DL : data_length_at c1 e1 m1 = data_length_at c2 e2 m1).
    { unfold data_length_at. rewrite (between_skip c1 (e1 + 81 + m1)), (between_skip c2 (e2 + 81 + m1)) by lia. rewrite E. do 3 f_equal; [lia|]. f_equal. lia. }
    assert (DD : between_bytes c1 (e1 + 81 + m1 + 2) (e1 + 81 + m1 + 2 + data_length_at c1 e1 m1) =
                 between_bytes c2 (e2 + 81 + m1 + 2) (e2 + 81 + m1 + 2 + data_length_at c2 e2 m1)).
    { rewrite DL. rewrite (between_skip c1 (e1 + 81 + m1)), (between_skip c2 (e2 + 81 + m1)) by lia. rewrite E. f_equal; [lia|]. f_equal. lia. }
    cbn zeta in T1, T2. rewrite DD, G1 in T1.
    assert (G7 : key_data k1 = key_data k2).
    { destruct (N.testbit (key_information k2) 12).
      - destruct T1 as (q1 & S1 & U1). destruct T2 as (q2 & S2 & U2). congruence.
      - congruence. }
    destruct k1, k2. cbn in *. congruence.
  - right. exists key, x, y. split; [exact K|]. split; [exact E|]. rewrite LM1. rewrite <- Y1, <- Y2, C1, C2. exact EM.
Qed.
End Facts.
