(** What becomes of a sent key frame at any receiver. *)
From Verif Require Import Base SpecBase BaseFacts StepsFacts Bits BitsFacts Layouts Enums Common CommonFacts Mgmt SpecMgmt MgmtFacts2 SpecElementTypes ElementTypesFacts
  Suites Rsn RsnFacts Data SpecData DataFacts DataFacts2 Eapol SpecEapol EapolFacts KeyMgmt SpecKeyMgmt KeyMgmtFacts KeyMgmtFacts2 KeyMgmtFacts3 KeyMgmtFacts4 KeyMgmtFacts5 KeyMgmtFacts6 KeyMgmtFacts7
  SpecArrival Sha1 Aes AesFacts.
Local Ltac lens := rewrite ?app_length, ?le_bytes_length, ?be_bytes_length, ?ne_bytes_length, ?repeat_length; cbn [length].

Section F.
Context {cfg : Cfg}.
Variable hmac : bytes -> bytes -> bytes.
Variable wrap : bytes -> bytes -> bytes.
Variable unwrap : bytes -> bytes -> option bytes.
Hypothesis HM : hmac_sha1 hmac.
Hypothesis KW : key_wrap wrap unwrap.

Theorem arrives kck kek h oui (k : KeyFrame bytes) akm temp fcs (with_fcs : bool) :
  ok_data_header h -> length oui = 3 -> wf_bytes oui -> ok_key_frame k -> key_mic_len akm = Some (length (key_mic k)) ->
  strict_end = false \/ (if N.testbit (key_information k) 12 then 8 else 0) < length (key_data k) ->
  length fcs = (if with_fcs then 4 else 0) ->
  deserialize_eapol hmac unwrap kck kek (enc_eapol h oui 0x888e k ++ fcs) temp akm with_fcs = arrival hmac unwrap kck kek temp k.
Proof.
  intros H LO WO OK KM EO LF.
  assert (Strip : deserialize_eapol hmac unwrap kck kek (enc_eapol h oui 0x888e k ++ fcs) temp akm with_fcs =
                  deserialize_eapol hmac unwrap kck kek (enc_eapol h oui 0x888e k) temp akm false).
  { destruct with_fcs.
    - rewrite deser_fcs. destruct (Nat.ltb_spec (length (enc_eapol h oui 0x888e k ++ fcs)) 4) as [X|_]; [rewrite app_length in X; lia|].
      rewrite firstn_app_exact; [reflexivity|]. lens. lia.
    - destruct fcs; [|discriminate]. now rewrite app_nil_r. }
  rewrite Strip. clear Strip LF fcs with_fcs.
  assert (W : wf_bytes (enc_eapol h oui 0x888e k)).
  { unfold enc_eapol. apply enc_data_wf; [exact H|]. apply wf_bytes_app. split; [|now apply enc_key_frame_wf].
    unfold enc_snap. rewrite !wf_bytes_app. split; [repeat constructor|]. split; [exact WO|apply be_bytes_wf]. }
  pose proof (eapol_offset_enc h oui k [] H LO) as O. rewrite app_nil_r in O.
  rewrite (deser_offset hmac unwrap (hmac_length _ HM) (kw_unwrap_length _ _ KW) _ _ _ _ _ _ W O). clear O.
  assert (EB : enc_eapol h oui 0x888e k = asm (before_eapol h oui 0x888e) (N.of_nat (length (enc_key_body k))) (enc_key_fields k) (key_mic k) (N.of_nat (length (key_data k))) (key_data k) [])
    by (rewrite <- (app_nil_r (enc_eapol h oui 0x888e k)); apply asm_enc).
  rewrite EB. set (p := before_eapol h oui 0x888e).
  assert (Ln : length (key_nonce k) = 32) by apply OK. assert (U16 : u16 (key_information k)) by apply OK.
  pose proof (enc_key_fields_length k Ln) as Lf. set (f := enc_key_fields k) in *.
  assert (Bd : (N.of_nat (length (key_data k)) < 65536)%N) by (destruct OK as (_ & _ & _ & _ & _ & _ & _ & _ & _ & B); lia).
  rewrite asm_length. destruct (Nat.ltb_spec (length p + 4 + length f + length (key_mic k) + 2 + length (key_data k) + length ([] : bytes)) (length p + 5)) as [X|_]; [lia|].
  destruct (Nat.ltb_spec (length p + 4 + length f + length (key_mic k) + 2 + length (key_data k) + length ([] : bytes)) (length p + 7)) as [X|_]; [lia|].
  rewrite KM.
  pose proof (key_mic_len_8 _ _ KM) as M8. assert (M : length (key_mic k) mod 8 = 0) by (destruct M8 as [->|[->| ->]]; reflexivity).
  assert (EI : info_at (asm p (N.of_nat (length (enc_key_body k))) f (key_mic k) (N.of_nat (length (key_data k))) (key_data k) []) (length p) = key_information k)
    by (now apply asm_info).
  rewrite EI. unfold arrival. cbv zeta.
  match goal with |- _ = (if _ then match _ with Some _ => if _ then _ else if _ then ?x else _ | None => _ end else _) => set (after := x) end.
  match goal with |- (_ <- _ ;; ?x) = _ => assert (AF : x = after) end.
  { unfold after.
  rewrite (decrypt_eq hmac unwrap (hmac_length _ HM) (kw_unwrap_length _ _ KW)). cbv zeta.
  rewrite asm_data_length_at by auto. rewrite Nnat.Nat2N.id. rewrite asm_length.
  destruct (N.testbit (key_information k) 12) eqn:B12.
  - destruct (Nat.ltb_spec (length p + 4 + length f + length (key_mic k) + 2 + length (key_data k) + length ([] : bytes)) (length p + 81 + length (key_mic k) + 2)) as [X|_]; [lia|].
    destruct (Nat.ltb_spec (length p + 4 + length f + length (key_mic k) + 2 + length (key_data k) + length ([] : bytes)) (length p + 81 + length (key_mic k) + 2 + length (key_data k))) as [X|_]; [lia|].
    destruct kek as [key|]; [|reflexivity]. destruct (Nat.ltb_spec (length (key_data k)) 8) as [X|L8]; [reflexivity|].
    destruct (temp + 8 <? length (key_data k)); [reflexivity|].
    rewrite asm_data_at by auto. destruct (unwrap key (key_data k)) as [plain|] eqn:U; [|reflexivity]. cbn [rbind].
    pose proof (kw_unwrap_length _ _ KW _ _ _ U) as UL.
    assert (WP : wf_bytes plain) by (eapply (kw_unwrap_wf _ _ KW); [|exact U]; apply OK).
    rewrite asm_decrypted by auto.
    assert (EF : asm p (N.of_nat (77 + length (key_mic k) + 2 + length plain)) f (key_mic k) (N.of_nat (length plain)) plain [] = p ++ enc_key_frame (with_data k plain)).
    { rewrite enc_key_frame_eq. unfold asm, before_mic. rewrite enc_key_body_length by exact Ln. cbn [with_data key_mic key_data]. change (enc_key_fields (with_data k plain)) with f.
      now rewrite <- !app_assoc, app_nil_r. }
    rewrite EF. unfold pread, gread. rewrite end_bad_lt by (lens; unfold enc_key_frame; lens; lia). rewrite skipn_app_exact by reflexivity.
    rewrite <- (app_nil_r (enc_key_frame _)), rd_key_frame_R; [reflexivity| |exact KM|].
    + destruct OK as (O1 & O2 & O3 & O4 & O5 & O6 & O7 & O8 & O9 & O10). cbn [with_data key_mic key_data key_information key_length key_replay_counter key_nonce key_iv key_rsc].
      repeat (split; [assumption|]). cbn [with_data key_mic key_data]. lia.
    + destruct EO as [EO|EO]; [left; exact EO|right]. cbn [with_data key_data]. intros ->. cbn [length] in UL. lia.
  - cbn [rbind].
    assert (EF : asm p (N.of_nat (length (enc_key_body k))) f (key_mic k) (N.of_nat (length (key_data k))) (key_data k) [] = p ++ enc_key_frame k).
    { rewrite enc_key_frame_eq. unfold asm, before_mic. fold f. now rewrite <- !app_assoc, app_nil_r. }
    rewrite EF. unfold pread, gread. rewrite end_bad_lt by (lens; unfold enc_key_frame; lens; lia). rewrite skipn_app_exact by reflexivity.
    rewrite <- (app_nil_r (enc_key_frame _)), rd_key_frame_R; [reflexivity|exact OK|exact KM|].
    destruct EO as [EO|EO]; [left; exact EO|right]. intros X. rewrite X in EO. cbn [length] in EO. lia. }
  rewrite AF. clear AF. clearbody after.
  rewrite (check_mic_eq hmac unwrap (hmac_length _ HM) (kw_unwrap_length _ _ KW)) by exact M.
  destruct (N.testbit (key_information k) 8); [|reflexivity]. destruct kck as [key|]; [|reflexivity].
  rewrite asm_length. destruct (Nat.ltb_spec (length p + 4 + length f + length (key_mic k) + 2 + length (key_data k) + length ([] : bytes)) (length p + 81 + length (key_mic k))) as [X|_]; [lia|].
  destruct (20 <? length (key_mic k)); [reflexivity|]. rewrite asm_mic_at by auto. rewrite asm_mic_input by auto.
  replace ([2; 3]%N ++ be_bytes 2 (N.of_nat (length (enc_key_body k))) ++ f ++ repeat 0%N (length (key_mic k)) ++ be_bytes 2 (N.of_nat (length (key_data k))) ++ key_data k)
    with (enc_key_frame (with_mic k (repeat 0%N (length (key_mic k))))).
  2:{ rewrite enc_key_frame_eq. unfold before_mic. rewrite !enc_key_body_length by exact Ln. cbn [with_mic key_mic key_data].
      rewrite repeat_length. change (enc_key_fields (with_mic k (repeat 0%N (length (key_mic k))))) with f. now rewrite <- !app_assoc. }
  destruct (list_eq_dec _ _ _) as [E|E]; destruct (list_eq_dec _ _ _) as [E'|E']; try reflexivity; exfalso; congruence.
Qed.

(** the MIC field of the caller *)
Lemma mic_inputs (k : KeyFrame bytes) : length (key_mic k) = 16 -> length (key_nonce k) = 32 ->
  (enc_key_frame k = enc_key_frame (with_mic k (repeat 0%N 16)) <-> key_mic k = repeat 0%N 16).
Proof.
  intros LM Ln. split.
  - intros E. rewrite !enc_key_frame_eq in E. unfold before_mic in E. rewrite !enc_key_body_length in E by exact Ln. cbn [with_mic key_mic key_data] in E.
    rewrite repeat_length, LM in E. change (enc_key_fields (with_mic k (repeat 0%N 16))) with (enc_key_fields k) in E.
    rewrite <- !app_assoc in E. do 3 apply app_inv_head in E. apply app_inj_len in E as [E _]; [exact E|]. now rewrite repeat_length.
  - intros E. destruct k. cbn in *. now subst.
Qed.
(** whatever was sent, at any receiver *)
Theorem sent_arrives kck kek h oui (k : KeyFrame Container) kd buffer temp buf' n kck' kek' akm temp' fcs (with_fcs : bool) :
  ok_data_header h -> length oui = 3 -> wf_bytes oui -> Writes (c_write (key_data k)) kd ->
  let sent := with_data k (sent_data wrap (the_key kek) (key_information k) kd) in
  ok_key_frame (with_data k kd) -> ok_key_frame sent -> length (enc_eapol h oui 0x888e (with_data k kd)) + slack <= length buffer ->
  serialize_eapol hmac wrap kck kek (h, Some (mkSnap oui 0x888e k)) buffer temp = Ok (buf', n) ->
  key_mic_len akm = Some (length (key_mic k)) -> strict_end = false \/ kd <> [] -> length fcs = (if with_fcs then 4 else 0) ->
  deserialize_eapol hmac unwrap kck' kek' (firstn n buf' ++ fcs) temp' akm with_fcs =
    arrival hmac unwrap kck' kek' temp' (with_mic sent (sent_mic hmac (the_key kck) sent)).
Proof.
  intros H LO WO WR sent OKD OK LB S KM EO LF.
  rewrite (serialize_outcome hmac wrap unwrap HM KW kck kek h oui 0x888e k kd buffer temp H LO WO WR OKD LB) in S. cbv zeta in S. fold sent in S.
  destruct (send_outcome _ _ _ _ _ _ _ _) as [[]|er|] eqn:SO; try discriminate. assert (EB : firstn n buf' = enc_eapol h oui 0x888e (with_mic sent (sent_mic hmac (the_key kck) sent)))
    by (assert (E1 := f_equal (fun r => match r with Ok v => fst v | _ => buf' end) S); assert (E2 := f_equal (fun r => match r with Ok v => snd v | _ => n end) S); cbv beta iota in E1, E2; cbn [fst snd] in E1, E2; rewrite <- E1, <- E2; now apply firstn_app_exact).
  rewrite EB. clear S EB.
  assert (LM : length (sent_mic hmac (the_key kck) sent) = length (key_mic k)).
  { unfold sent_mic. change (key_information sent) with (key_information k). destruct (N.testbit (key_information k) 8) eqn:B8; [|reflexivity].
    unfold send_outcome in SO. cbv zeta in SO. repeat match type of SO with (if ?c then _ else _) = _ => destruct c eqn:?; try discriminate end.
    rewrite firstn_length, (hmac_length _ HM). rewrite B8 in *. cbn [andb] in *.
    match goal with X : negb (length (key_mic k) =? 16) = false |- _ => apply Bool.negb_false_iff, Nat.eqb_eq in X; rewrite X end. reflexivity. }
  apply arrives; auto.
  - destruct OK as (O1 & O2 & O3 & O4 & O5 & O6 & O7 & O8 & O9 & O10). cbn [with_mic key_mic key_data key_information key_length key_replay_counter key_nonce key_iv key_rsc].
    repeat (split; [first [assumption|unfold sent_mic; destruct (N.testbit _ 8); [apply wf_firstn, (hmac_wf _ HM)|assumption]]|]). cbn [with_mic key_mic key_data]. rewrite LM. exact O10.
  - cbn [with_mic key_mic]. now rewrite LM.
  - destruct EO as [EO|EO]; [now left|right]. cbn [with_mic key_data key_information sent with_data].
    rewrite (sent_data_length wrap unwrap KW). destruct (N.testbit (key_information k) 12); destruct kd as [|b kd']; try congruence; [|cbn [length]; lia].
    pose proof (padded_length_ge (length (b :: kd'))). lia.
Qed.
Theorem mic_field kck kek h oui (k : KeyFrame Container) kd buffer temp buf' n kek' akm temp' fcs (with_fcs : bool) :
  ok_data_header h -> length oui = 3 -> wf_bytes oui -> Writes (c_write (key_data k)) kd ->
  ok_key_frame (with_data k kd) -> ok_key_frame (with_data k (sent_data wrap (the_key kek) (key_information k) kd)) ->
  length (enc_eapol h oui 0x888e (with_data k kd)) + slack <= length buffer ->
  serialize_eapol hmac wrap (Some kck) kek (h, Some (mkSnap oui 0x888e k)) buffer temp = Ok (buf', n) ->
  key_mic_len akm = Some 16 -> strict_end = false \/ kd <> [] -> length fcs = (if with_fcs then 4 else 0) ->
  has_mic (key_information k) -> length (key_mic k) = 16 -> key_mic k <> repeat 0%N 16 ->
  deserialize_eapol hmac unwrap (Some kck) kek' (firstn n buf' ++ fcs) temp' akm with_fcs = Err InvalidMic \/
  exists x y, x <> y /\ firstn 16 (hmac kck x) = firstn 16 (hmac kck y).
Proof.
  intros H LO WO WR OKD OK LB S KM EO LF HMC LM NZ.
  rewrite (sent_arrives (Some kck) kek h oui k kd buffer temp buf' n (Some kck) kek' akm temp' fcs with_fcs) by (first [assumption|now rewrite LM]).
  set (sent := with_data k (sent_data wrap (the_key kek) (key_information k) kd)) in *. unfold has_mic in HMC.
  assert (E : sent_mic hmac (the_key (Some kck)) sent = firstn 16 (hmac kck (enc_key_frame sent)))
    by (unfold sent_mic; change (key_information sent) with (key_information k); now rewrite HMC).
  rewrite E. set (mic := firstn 16 (hmac kck (enc_key_frame sent))).
  assert (L16 : length mic = 16) by (unfold mic; rewrite firstn_length, (hmac_length _ HM); reflexivity).
  unfold arrival. cbv zeta. change (key_mic (with_mic sent mic)) with mic. change (key_information (with_mic sent mic)) with (key_information k).
  rewrite L16, HMC. change (20 <? 16) with false. cbv iota. change (with_mic (with_mic sent mic) (repeat 0%N 16)) with (with_mic sent (repeat 0%N 16)).
  destruct (list_eq_dec _ _ _) as [EQ|NE]; [|now left]. right. exists (enc_key_frame sent), (enc_key_frame (with_mic sent (repeat 0%N 16))).
  split; [|exact EQ]. intros X. apply mic_inputs in X; [|exact LM|apply OK]. exact (NZ X).
Qed.
(** empty key data that is said to be encrypted *)
Theorem empty_encrypted kck kek h oui (k : KeyFrame Container) buffer temp buf' n kek' akm temp' fcs (with_fcs : bool) :
  ok_data_header h -> length oui = 3 -> wf_bytes oui -> Writes (c_write (key_data k)) [] -> ok_key_frame (with_data k []) ->
  length (enc_eapol h oui 0x888e (with_data k [])) + slack <= length buffer ->
  serialize_eapol hmac wrap (Some kck) kek (h, Some (mkSnap oui 0x888e k)) buffer temp = Ok (buf', n) ->
  key_mic_len akm = Some 16 -> strict_end = false -> length fcs = (if with_fcs then 4 else 0) ->
  has_encrypted_data (key_information k) -> key_mic k = repeat 0%N 16 ->
  deserialize_eapol hmac unwrap (Some kck) kek' (firstn n buf' ++ fcs) temp' akm with_fcs = match kek' with None => Err MissingKey | Some _ => Panic end.
Proof.
  intros H LO WO WR OKD LB S KM EO LF HE ZM. unfold has_encrypted_data in HE.
  assert (ES : with_data k (sent_data wrap (the_key kek) (key_information k) []) = with_data k []) by (unfold sent_data; now destruct (N.testbit _ 12)).
  rewrite (sent_arrives (Some kck) kek h oui k [] buffer temp buf' n (Some kck) kek' akm temp' fcs with_fcs); auto;
    try (now rewrite ES); try (now rewrite ZM).
  rewrite ES. set (sent := with_data k []) in *.
  set (mic := sent_mic hmac (the_key (Some kck)) sent).
  unfold arrival. cbv zeta. change (key_mic (with_mic sent mic)) with mic. change (key_information (with_mic sent mic)) with (key_information k).
  change (key_data (with_mic sent mic)) with ([] : bytes). rewrite HE. change (length ([] : bytes) <? 8) with true. cbv iota.
  destruct (N.testbit (key_information k) 8) eqn:B8; [|reflexivity].
  assert (EM : mic = firstn 16 (hmac kck (enc_key_frame sent))) by (unfold mic, sent_mic; change (key_information sent) with (key_information k); now rewrite B8).
  assert (L16 : length mic = 16) by (rewrite EM, firstn_length, (hmac_length _ HM); reflexivity).
  rewrite L16. change (20 <? 16) with false. cbv iota.
  assert (EZ : with_mic (with_mic sent mic) (repeat 0%N 16) = sent).
  { unfold sent, with_mic, with_data. cbn. now rewrite ZM. }
  match goal with |- context [hmac kck (enc_key_frame ?t)] => replace t with sent by (symmetry; exact EZ) end. destruct (list_eq_dec _ _ _) as [_|NE]; [reflexivity|congruence].
Qed.
End F.

(** the frame of the repository's test *)
Lemma arrives_ex : let k := with_data (test_key_frame test_mic []) (aes_wrap test_kek test_data) in
  ok_key_frame k /\ key_mic_len Ak_Psk = Some (length (key_mic k)) /\ 8 < length (key_data k) /\
  arrival hmac_sha1_of aes_unwrap (Some test_kck) (Some test_kek) 100 k = Ok (test_key_frame test_mic test_data) /\
  arrival hmac_sha1_of aes_unwrap (Some test_kek) (Some test_kek) 100 k = Err InvalidMic /\
  arrival hmac_sha1_of aes_unwrap (Some test_kck) (Some test_kck) 100 k = Err TemporaryBufferToShort /\
  arrival hmac_sha1_of aes_unwrap (Some test_kck) None 100 k = Err MissingKey.
Proof.
  cbv zeta. rewrite known_wrap_eq.
  assert (AE : forall kck kek k, arrival hmac_sha1_of aes_unwrap kck kek 100 k = arrival known_hmac known_unwrap kck kek 100 k).
  { intros kck kek k. unfold arrival. destruct kck, kek; now rewrite ?known_hmac_eq, ?known_unwrap_eq. }
  rewrite !AE. split.
  { assert (W : wf_bytes (known_wrap test_kek test_data)) by (apply wf_bytesb_spec; vm_compute; reflexivity).
    unfold ok_key_frame, u16, u64. cbn [with_data test_key_frame key_information key_length key_replay_counter key_nonce key_iv key_rsc key_mic key_data].
    repeat (split; [first [exact W|apply wf_bytesb_spec; vm_compute; reflexivity|vm_compute; reflexivity]|]). vm_compute. reflexivity. }
  split; [vm_compute; reflexivity|]. split; [apply Nat.ltb_lt; vm_compute; reflexivity|]. split; [vm_compute; reflexivity|]. split; [vm_compute; reflexivity|].
  split; vm_compute; reflexivity.
Qed.
