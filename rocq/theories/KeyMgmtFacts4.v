(** Facts about accepted EAPOL frames. *)
From Verif Require Import Base SpecBase BaseFacts StepsFacts Bits BitsFacts Layouts Enums Common CommonFacts Mgmt SpecMgmt MgmtFacts2 SpecElementTypes ElementTypesFacts
  Suites Rsn RsnFacts Data SpecData DataFacts DataFacts2 Eapol SpecEapol EapolFacts KeyMgmt SpecKeyMgmt KeyMgmtFacts KeyMgmtFacts2 KeyMgmtFacts3.
Local Ltac lens := rewrite ?app_length, ?le_bytes_length, ?be_bytes_length, ?ne_bytes_length, ?repeat_length; cbn [length].

Lemma app_inj_len {A} (a b c d : list A) : length a = length c -> a ++ b = c ++ d -> a = c /\ b = d.
Proof.
  revert c. induction a as [|x a IH]; intros [|y c] L E; try discriminate; [auto|]. injection L as L. injection E as -> E.
  destruct (IH c L E) as [-> ->]. auto.
Qed.
Lemma enc_received_eq version len reserved k : enc_received version len reserved k =
  [version; 3]%N ++ be_bytes 2 len ++ received_fields reserved k ++ key_mic k ++ be_bytes 2 (N.of_nat (length (key_data k))) ++ key_data k.
Proof. unfold enc_received, received_fields. now rewrite <- !app_assoc. Qed.
Lemma received_fields_length {P} reserved (k : KeyFrame P) : length (key_nonce k) = 32 -> length reserved = 8 -> length (received_fields reserved k) = 77.
Proof. intros L R. unfold received_fields. lens. lia. Qed.
Lemma be2_inj x y : (x < 65536)%N -> (y < 65536)%N -> be_bytes 2 x = be_bytes 2 y -> x = y.
Proof. intros X Y E. apply (f_equal be_val) in E. rewrite !be_val_bytes_small in E by assumption. exact E. Qed.
Lemma info_of_fields b e m mic reserved (k : KeyFrame bytes) : u16 (key_information k) -> length (key_nonce k) = 32 -> length reserved = 8 ->
  between_bytes b (e + 4) (e + 81 + m) = received_fields reserved k ++ mic -> info_at b e = key_information k.
Proof.
  intros U Ln Lr E. unfold info_at.
  assert (X : between_bytes b (e + 5) (e + 7) = be_bytes 2 (key_information k)).
  { unfold between_bytes in *. replace (e + 7 - (e + 5)) with 2 by lia. replace (e + 81 + m - (e + 4)) with (77 + m) in E by lia.
    replace (skipn (e + 5) b) with (skipn 1 (skipn (e + 4) b)) by (rewrite skipn_skipn_add; f_equal; lia).
    assert (F : firstn 2 (skipn 1 (skipn (e + 4) b)) = firstn 2 (skipn 1 (firstn (77 + m) (skipn (e + 4) b)))).
    { rewrite skipn_firstn_comm, firstn_firstn. f_equal. }
    rewrite F, E. unfold received_fields. cbn [app skipn]. rewrite <- !app_assoc. now apply firstn_app_exact. }
  rewrite X. apply be_val_bytes_small. exact U.
Qed.

Section F.
Context {cfg : Cfg}.
Variable hmac : bytes -> bytes -> bytes.
Variable unwrap : bytes -> bytes -> option bytes.
Hypothesis HM : forall key m, length (hmac key m) = 20.
Hypothesis UL : forall kek c p, unwrap kek c = Some p -> length p + 8 = length c.
Hypothesis UW : forall kek c p, wf_bytes c -> unwrap kek c = Some p -> wf_bytes p.

Lemma deser_accepted kck kek b temp akm k : wf_bytes b ->
  deserialize_eapol hmac unwrap kck kek b temp akm false = Ok k ->
  exists e m version reserved, eapol_offset b e /\ key_mic_len akm = Some m /\ length (key_mic k) = m /\ ok_key_frame k /\ length reserved = 8 /\
    e + 81 + m + 2 + data_length_at b e m <= length b /\
    between_bytes b e (e + 2) = [version; 3]%N /\
    between_bytes b (e + 4) (e + 81) = received_fields reserved k /\
    between_bytes b (e + 81) (e + 81 + m) = key_mic k /\
    key_information k = info_at b e /\
    passes_mic hmac kck b e m /\
    (let data := between_bytes b (e + 81 + m + 2) (e + 81 + m + 2 + data_length_at b e m) in
     if N.testbit (key_information k) 12 then exists key, kek = Some key /\ unwrap key data = Some (key_data k)
     else key_data k = data).
Proof.
  intros W G. destruct (eapol_offset_dec hmac unwrap HM UL b W) as [[e O]|NO].
  2:{ destruct (deser_no_offset hmac unwrap HM UL kck kek b temp akm W NO) as [er E]. congruence. }
  rewrite (deser_offset hmac unwrap HM UL _ _ _ _ _ e W O) in G.
  destruct (Nat.ltb_spec (length b) (e + 5)) as [|L5]; [discriminate|]. destruct (Nat.ltb_spec (length b) (e + 7)) as [|L7]; [discriminate|].
  destruct (key_mic_len akm) as [m|] eqn:KM; [|discriminate].
  pose proof (key_mic_len_8 _ _ KM) as M8. assert (M : m mod 8 = 0) by (destruct M8 as [->|[->| ->]]; reflexivity).
  destruct (check_mic hmac kck b e m (info_at b e)) as [[]|er|] eqn:C; try discriminate. apply (check_mic_ok hmac unwrap HM UL) in C; [|exact M]. cbn [rbind] in G.
  rewrite (decrypt_eq hmac unwrap HM UL) in G. cbv zeta in G. set (dl := data_length_at b e m) in *.
  assert (PARSE : forall x, wf_bytes x -> map_err KeyFrameDeserializationFailure (pread (rd_key_frame akm) x e) = Ok k ->
    exists version len reserved tail, skipn e x = enc_received version len reserved k ++ tail /\ length reserved = 8 /\ ok_key_frame k /\ length (key_mic k) = m).
  { intros x Wx P. unfold pread, gread in P. destruct (end_bad e (length x)); [discriminate|].
    destruct (rd_key_frame akm (skipn e x)) as [[k' n]| |] eqn:R; try discriminate. cbn in P. injection P as ->.
    apply rd_key_frame_inv in R; [|now apply wf_skipn]. destruct R as (v & len & res & tail & E & Lr & _ & _ & _ & OK & KL). exists v, len, res, tail.
    rewrite KM in KL. injection KL as KL. auto. }
  destruct (N.testbit (info_at b e) 12) eqn:B12.
  - (* encrypted *)
    destruct (Nat.ltb_spec (length b) (e + 81 + m + 2)) as [|L1]; [discriminate|].
    destruct (Nat.ltb_spec (length b) (e + 81 + m + 2 + dl)) as [|L2]; [discriminate|].
    destruct kek as [key|]; [|discriminate]. destruct (Nat.ltb_spec dl 8) as [|L3]; [discriminate|]. destruct (Nat.ltb_spec (temp + 8) dl) as [|L4]; [discriminate|].
    destruct (unwrap key _) as [plain|] eqn:U; [|discriminate]. cbn [rbind] in G.
    pose proof (UL _ _ _ U) as Lp. rewrite between_length in Lp by lia.
    assert (Wp : wf_bytes plain) by (eapply UW; [|exact U]; now apply between_wf).
    assert (DL : (N.of_nat dl < 65536)%N).
    { unfold dl, data_length_at. rewrite Nnat.N2Nat.id. pose proof (be_val_bound (between_bytes b (e + 81 + m) (e + 81 + m + 2)) (between_wf _ _ _ W)) as X.
      rewrite between_length in X by lia. replace (e + 81 + m + 2 - (e + 81 + m)) with 2 in X by lia. exact X. }
    assert (Wd : wf_bytes (decrypted b e m dl plain)).
    { unfold decrypted. rewrite !wf_bytes_app. repeat split; try apply be_bytes_wf; try (now apply between_wf); auto using wf_firstn, wf_skipn. }
    destruct (PARSE _ Wd G) as (v & len & res & tail & E & Lr & OK & Lm). clear PARSE G Wd.
    exists e, m, v, res. assert (Ln : length (key_nonce k) = 32) by apply OK. assert (U16 : u16 (key_information k)) by apply OK.
    unfold decrypted in E. rewrite skipn_app in E. rewrite firstn_length in E. replace (e - Nat.min (e + 2) (length b)) with 0 in E by lia. cbn [skipn] in E.
    rewrite skipn_firstn_comm in E. replace (e + 2 - e) with 2 in E by lia. replace (firstn 2 (skipn e b)) with (between_bytes b e (e + 2)) in E by (unfold between_bytes; f_equal; lia).
    rewrite enc_received_eq, <- !app_assoc in E.
    apply app_inj_len in E as [E1 E]; [|rewrite between_length by lia; cbn [length]; lia].
    apply app_inj_len in E as [_ E]; [|lens; lia].
    rewrite (app_assoc (received_fields res k)) in E. apply app_inj_len in E as [E2 E].
    2:{ rewrite between_length by lia. rewrite app_length, received_fields_length by assumption. lia. }
    apply app_inj_len in E as [E3 E]; [|lens; lia].
    assert (B : (N.of_nat (length (key_data k)) < 65536)%N) by (destruct OK as (_ & _ & _ & _ & _ & _ & _ & _ & _ & B); lia).
    apply be2_inj in E3; [|lia|exact B]. apply app_inj_len in E as [E4 _]; [|lia].
    pose proof (info_of_fields _ _ _ _ _ _ U16 Ln Lr E2) as EI.
    rewrite (between_mid b (e + 4) (e + 81) (e + 81 + m)) in E2 by lia. apply app_inj_len in E2 as [E5 E6].
    2:{ rewrite between_length by lia. rewrite received_fields_length by assumption. lia. }
    do 5 (split; [first [assumption|reflexivity]|]). split; [fold dl; lia|]. do 3 (split; [assumption|]). split; [now symmetry|]. split; [exact C|].
    fold dl. rewrite <- EI, B12. exists key. split; [reflexivity|]. rewrite U. f_equal. exact E4.
  - cbn [rbind] in G. destruct (PARSE _ W G) as (v & len & res & tail & E & Lr & OK & Lm). clear PARSE G.
    exists e, m, v, res. assert (Ln : length (key_nonce k) = 32) by apply OK. assert (U16 : u16 (key_information k)) by apply OK.
    assert (B : (N.of_nat (length (key_data k)) < 65536)%N) by (destruct OK as (_ & _ & _ & _ & _ & _ & _ & _ & _ & B); lia).
    rewrite enc_received_eq, <- !app_assoc in E.
    assert (LB : e + 81 + m + 2 + length (key_data k) <= length b).
    { apply (f_equal (@length N)) in E. rewrite skipn_length in E. rewrite !app_length, !be_bytes_length, received_fields_length in E by assumption. cbn [length] in E. lia. }
    rewrite (between_split b e (e + 2)) in E by lia. apply app_inj_len in E as [E1 E]; [|rewrite between_length by lia; cbn [length]; lia].
    rewrite (between_split b (e + 2) (e + 4)) in E by lia. apply app_inj_len in E as [_ E]; [|rewrite between_length by lia; lens; lia].
    rewrite (between_split b (e + 4) (e + 81 + m)) in E by lia. rewrite (app_assoc (received_fields res k)) in E. apply app_inj_len in E as [E2 E].
    2:{ rewrite between_length by lia. rewrite app_length, received_fields_length by assumption. lia. }
    rewrite (between_split b (e + 81 + m) (e + 81 + m + 2)) in E by lia. apply app_inj_len in E as [E3 E]; [|rewrite between_length by lia; lens; lia].
    assert (DL : dl = length (key_data k)).
    { unfold dl, data_length_at. rewrite E3, be_val_bytes_small by exact B. apply Nnat.Nat2N.id. }
    rewrite (between_split b (e + 81 + m + 2) (e + 81 + m + 2 + dl)) in E by lia. apply app_inj_len in E as [E4 _]; [|rewrite between_length by lia; lia].
    pose proof (info_of_fields _ _ _ _ _ _ U16 Ln Lr E2) as EI.
    rewrite (between_mid b (e + 4) (e + 81) (e + 81 + m)) in E2 by lia. apply app_inj_len in E2 as [E5 E6].
    2:{ rewrite between_length by lia. rewrite received_fields_length by assumption. lia. }
    do 5 (split; [first [assumption|reflexivity]|]). split; [fold dl; lia|]. do 3 (split; [assumption|]). split; [now symmetry|]. split; [exact C|].
    fold dl. rewrite <- EI, B12. now symmetry.
Qed.
End F.
