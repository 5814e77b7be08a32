(** What [serialize_eapol_data_frame] writes is accepted by [deserialize_eapol_data_frame]. *)
From Verif Require Import Base SpecBase BaseFacts StepsFacts Bits BitsFacts Layouts Enums Common CommonFacts Mgmt SpecMgmt MgmtFacts2 SpecElementTypes ElementTypesFacts
  Suites Rsn RsnFacts Data SpecData DataFacts DataFacts2 Eapol SpecEapol EapolFacts KeyMgmt SpecKeyMgmt KeyMgmtFacts KeyMgmtFacts2 KeyMgmtFacts3 KeyMgmtFacts4.
Local Ltac lens := rewrite ?app_length, ?le_bytes_length, ?be_bytes_length, ?ne_bytes_length, ?repeat_length; cbn [length].

Lemma header_size_enc {cfg : Cfg} h body : ok_data_header h -> header_size (enc_data h body) = Some (dh_length h).
Proof.
  intros H. assert (S : (subtype_number h < 16)%N).
  { pose proof (enc_data_wf h [] H (Forall_nil _)) as W. unfold enc_data, enc_fcf in W. cbn [app] in W. apply wf_bytes_cons in W as [W _]. lia. }
  pose proof (enc_data_length h body H) as L. destruct H as (_ & _ & _ & _ & _ & _ & _ & O4 & OQ & OH).
  unfold enc_data, enc_fcf in *. cbn [app] in *. unfold header_size.
  replace ((4 * 2 + 16 * subtype_number h) / 4 mod 4)%N with 2%N by lia. cbn [N.eqb Pos.eqb andb].
  assert (E : data_header_size (4 * 2 + 16 * subtype_number h) (dh_flags h) = dh_length h).
  { unfold data_header_size, dh_length. replace (((4 * 2 + 16 * subtype_number h) / 16) mod 16)%N with (subtype_number h) by lia.
    unfold opt_field in *. destruct (dh_a4 h), (dh_qos h), (dh_ht h); repeat match goal with X : _ /\ _ |- _ => destruct X as [X _] end;
      repeat match goal with X : ?b = true |- _ => rewrite X | X : ?b = false |- _ => rewrite X end; lia. }
  rewrite E. rewrite L. destruct (Nat.leb_spec (dh_length h) (dh_length h + length body)); [reflexivity|lia].
Qed.
Lemma between_at (a b c : bytes) n m : n = length a -> m = length a + length b -> between_bytes (a ++ b ++ c) n m = b.
Proof. intros -> ->. apply between_app. Qed.
Lemma eapol_offset_enc {cfg : Cfg} h oui k t : ok_data_header h -> length oui = 3 -> eapol_offset (enc_eapol h oui 0x888e k ++ t) (length (before_eapol h oui 0x888e)).
Proof.
  intros H LO. exists (dh_length h). split.
  { unfold enc_eapol, enc_data. rewrite <- !app_assoc. rewrite <- (header_size_enc h ((enc_snap oui 0x888e ++ enc_key_frame k) ++ t) H).
    unfold enc_data. now rewrite <- !app_assoc. }
  rewrite (before_eapol_length h oui 0x888e H LO). split; [reflexivity|].
  rewrite enc_eapol_eq. split; [lens; rewrite (before_eapol_length h oui 0x888e H LO); lia|].
  unfold before_eapol, enc_snap. change (be_bytes 2 0x888e) with [0x88; 0x8e]%N.
  replace ((((enc_fcf 2 (subtype_number h) (dh_flags h) ++ enc_data_header h ++ [170%N; 170%N; 3%N] ++ oui ++ [136%N; 142%N]) ++ enc_key_frame k) ++ t))
    with ((enc_fcf 2 (subtype_number h) (dh_flags h) ++ enc_data_header h ++ [170%N; 170%N; 3%N] ++ oui) ++ [136%N; 142%N] ++ (enc_key_frame k ++ t))
    by (now rewrite <- !app_assoc).
  pose proof (enc_data_header_length h H). apply between_at; unfold enc_fcf; lens; lia.
Qed.

Section F.
Context {cfg : Cfg}.
Variable hmac : bytes -> bytes -> bytes.
Variable wrap : bytes -> bytes -> bytes.
Variable unwrap : bytes -> bytes -> option bytes.
Hypothesis HM : hmac_sha1 hmac.
Hypothesis KW : key_wrap wrap unwrap.

Lemma asm_data_length_at p len f mic (data t : bytes) dlen m : length f = 77 -> length mic = m -> (dlen < 65536)%N ->
  data_length_at (asm p len f mic dlen data t) (length p) m = N.to_nat dlen.
Proof.
  intros Lf <- B. unfold data_length_at. destruct (asm_dlen p len f mic dlen data t) as (a & -> & La & _). rewrite between_at by (lens; lia).
  now rewrite be_val_bytes_small.
Qed.
Lemma asm_info {P} p len (k : KeyFrame P) mic dlen data t : u16 (key_information k) ->
  info_at (asm p len (enc_key_fields k) mic dlen data t) (length p) = key_information k.
Proof.
  intros U. unfold info_at, asm, enc_key_fields.
  replace (p ++ [2; 3]%N ++ be_bytes 2 len ++ ([2%N] ++ be_bytes 2 (key_information k) ++ be_bytes 2 (key_length k) ++ be_bytes 8 (key_replay_counter k) ++
      key_nonce k ++ be_bytes 16 (key_iv k) ++ be_bytes 8 (key_rsc k) ++ repeat 0%N 8) ++ mic ++ be_bytes 2 dlen ++ data ++ t)
    with ((p ++ [2; 3]%N ++ be_bytes 2 len ++ [2%N]) ++ be_bytes 2 (key_information k) ++ (be_bytes 2 (key_length k) ++ be_bytes 8 (key_replay_counter k) ++
      key_nonce k ++ be_bytes 16 (key_iv k) ++ be_bytes 8 (key_rsc k) ++ repeat 0%N 8 ++ mic ++ be_bytes 2 dlen ++ data ++ t))
    by (now rewrite <- !app_assoc).
  rewrite between_at by (lens; lia). now apply be_val_bytes_small.
Qed.
(** the frame as the MIC sees it *)
Lemma asm_mic_input p len f mic dlen data m : length f = 77 -> length mic = m ->
  let b := asm p len f mic dlen data [] in
  between_bytes b (length p) (length p + 81) ++ repeat 0%N m ++ skipn (length p + 81 + m) b =
  [2; 3]%N ++ be_bytes 2 len ++ f ++ repeat 0%N m ++ be_bytes 2 dlen ++ data.
Proof.
  intros Lf <-. cbv zeta. unfold asm.
  replace (p ++ [2; 3]%N ++ be_bytes 2 len ++ f ++ mic ++ be_bytes 2 dlen ++ data ++ [])
    with (p ++ ([2; 3]%N ++ be_bytes 2 len ++ f) ++ (mic ++ be_bytes 2 dlen ++ data)) by (now rewrite <- !app_assoc, app_nil_r).
  rewrite between_at by (lens; lia).
  replace (p ++ ([2; 3]%N ++ be_bytes 2 len ++ f) ++ (mic ++ be_bytes 2 dlen ++ data)) with ((p ++ ([2; 3]%N ++ be_bytes 2 len ++ f) ++ mic) ++ (be_bytes 2 dlen ++ data))
    by (now rewrite <- !app_assoc).
  rewrite skipn_app_exact by (lens; lia). now rewrite <- !app_assoc.
Qed.
Lemma asm_mic_at p len f mic dlen data t m : length f = 77 -> length mic = m ->
  between_bytes (asm p len f mic dlen data t) (length p + 81) (length p + 81 + m) = mic.
Proof. intros Lf <-. destruct (asm_mic p len f mic dlen data t) as (a & b & -> & La & _). apply between_at; lia. Qed.
Lemma asm_data_at p len f mic dlen data t m : length f = 77 -> length mic = m ->
  between_bytes (asm p len f mic dlen data t) (length p + 81 + m + 2) (length p + 81 + m + 2 + length data) = data.
Proof. intros Lf <-. destruct (asm_data p len f mic dlen data t) as (a & -> & La & _). apply between_at; lia. Qed.
Lemma asm_length p len f mic dlen data t : length (asm p len f mic dlen data t) = length p + 4 + length f + length mic + 2 + length data + length t.
Proof. unfold asm. lens. lia. Qed.
Lemma asm_decrypted p len f mic data m plain : length f = 77 -> length mic = m -> length plain + 8 = length data ->
  decrypted (asm p len f mic (N.of_nat (length data)) data []) (length p) m (length data) plain =
  asm p (N.of_nat (77 + m + 2 + length plain)) f mic (N.of_nat (length plain)) plain [].
Proof.
  intros Lf Lm Lp. unfold decrypted. rewrite asm_length.
  replace (length p + 4 + length f + length mic + 2 + length data + length ([] : bytes) - (length p + 81 + m + 2 + length data)) with 0 by (cbn [length]; lia).
  cbn [firstn]. unfold asm.
  replace (firstn (length p + 2) (p ++ [2; 3]%N ++ be_bytes 2 len ++ f ++ mic ++ be_bytes 2 (N.of_nat (length data)) ++ data ++ [])) with (p ++ [2; 3]%N).
  2:{ rewrite (app_assoc p). symmetry. apply firstn_app_exact. lens. lia. }
  replace (p ++ [2; 3]%N ++ be_bytes 2 len ++ f ++ mic ++ be_bytes 2 (N.of_nat (length data)) ++ data ++ [])
    with ((p ++ [2; 3]%N ++ be_bytes 2 len) ++ (f ++ mic) ++ (be_bytes 2 (N.of_nat (length data)) ++ data ++ [])) by (now rewrite <- !app_assoc).
  rewrite between_at by (lens; lia). rewrite <- !app_assoc. do 2 f_equal. cbn [length]. f_equal; [f_equal; lia|]. do 2 f_equal. f_equal. f_equal. lia.
Qed.

Theorem deser_accepts {P} kck kek kck_opt kek_opt h oui (k : KeyFrame P) kd akm temp (fcs : bytes) (with_fcs : bool) :
  ok_data_header h -> length oui = 3 -> wf_bytes oui -> wf_bytes kd ->
  let sent := with_data k (sent_data wrap kek (key_information k) kd) in
  ok_key_frame sent -> key_mic_len akm = Some (length (key_mic k)) ->
  (has_mic (key_information k) -> kck_opt = Some kck /\ length (key_mic k) <= 20 /\
     key_mic k = firstn (length (key_mic k)) (hmac kck (enc_key_frame (with_mic sent (repeat 0%N (length (key_mic k))))))) ->
  (has_encrypted_data (key_information k) -> kek_opt = Some kek /\ kd <> [] /\ length (pad_key_data kd) <= temp) ->
  strict_end = false \/ kd <> [] -> length fcs = (if with_fcs then 4 else 0) ->
  deserialize_eapol hmac unwrap kck_opt kek_opt (enc_eapol h oui 0x888e sent ++ fcs) temp akm with_fcs =
    Ok (with_data k (received_data (key_information k) kd)).
Proof.
  intros H LO WO Wkd. cbv zeta. set (data := sent_data wrap kek (key_information k) kd). set (sent := with_data k data). intros OK KM HC HK EO LF.
  assert (Strip : deserialize_eapol hmac unwrap kck_opt kek_opt (enc_eapol h oui 0x888e sent ++ fcs) temp akm with_fcs =
                  deserialize_eapol hmac unwrap kck_opt kek_opt (enc_eapol h oui 0x888e sent) temp akm false).
  { destruct with_fcs.
    - rewrite deser_fcs. destruct (Nat.ltb_spec (length (enc_eapol h oui 0x888e sent ++ fcs)) 4) as [X|_]; [rewrite app_length in X; lia|].
      rewrite firstn_app_exact; [reflexivity|]. lens. lia.
    - destruct fcs; [|discriminate]. now rewrite app_nil_r. }
  rewrite Strip. clear Strip LF fcs with_fcs.
  assert (W : wf_bytes (enc_eapol h oui 0x888e sent)).
  { unfold enc_eapol. apply enc_data_wf; [exact H|]. apply wf_bytes_app. split; [|now apply enc_key_frame_wf].
    unfold enc_snap. rewrite !wf_bytes_app. split; [repeat constructor|]. split; [exact WO|apply be_bytes_wf]. }
  pose proof (eapol_offset_enc h oui sent [] H LO) as O. rewrite app_nil_r in O.
  rewrite (deser_offset hmac unwrap (hmac_length _ HM) (kw_unwrap_length _ _ KW) _ _ _ _ _ _ W O). clear O.
  assert (EB : enc_eapol h oui 0x888e sent = asm (before_eapol h oui 0x888e) (N.of_nat (length (enc_key_body sent))) (enc_key_fields sent) (key_mic sent) (N.of_nat (length (key_data sent))) (key_data sent) [])
    by (rewrite <- (app_nil_r (enc_eapol h oui 0x888e sent)); apply asm_enc).
  rewrite EB. change (enc_key_fields sent) with (enc_key_fields k). change (key_mic sent) with (key_mic k). change (key_data sent) with data.
  set (p := before_eapol h oui 0x888e).
  assert (Ln : length (key_nonce k) = 32) by apply OK. assert (U16 : u16 (key_information k)) by apply OK.
  pose proof (enc_key_fields_length k Ln) as Lf. set (f := enc_key_fields k) in *.
  assert (Bd : (N.of_nat (length data) < 65536)%N) by (destruct OK as (_ & _ & _ & _ & _ & _ & _ & _ & _ & B); cbn [sent with_data key_data] in B; lia).
  rewrite asm_length. destruct (Nat.ltb_spec (length p + 4 + length f + length (key_mic k) + 2 + length data + length ([] : bytes)) (length p + 5)) as [X|_]; [lia|].
  destruct (Nat.ltb_spec (length p + 4 + length f + length (key_mic k) + 2 + length data + length ([] : bytes)) (length p + 7)) as [X|_]; [lia|].
  rewrite KM.
  pose proof (key_mic_len_8 _ _ KM) as M8. assert (M : length (key_mic k) mod 8 = 0) by (destruct M8 as [->|[->| ->]]; reflexivity).
  assert (EI : info_at (asm p (N.of_nat (length (enc_key_body sent))) f (key_mic k) (N.of_nat (length data)) data []) (length p) = key_information k)
    by (now apply asm_info).
  pose proof (check_mic_ok hmac unwrap (hmac_length _ HM) (kw_unwrap_length _ _ KW) kck_opt
     (asm p (N.of_nat (length (enc_key_body sent))) f (key_mic k) (N.of_nat (length data)) data []) (length p) (length (key_mic k)) M) as [_ C].
  rewrite C; clear C.
  2:{ intros HH. rewrite EI in HH. destruct (HC HH) as (-> & L20 & EM). exists kck. split; [reflexivity|]. split; [exact L20|].
      split; [rewrite asm_length; lia|]. rewrite asm_mic_at by auto. rewrite asm_mic_input by auto. rewrite EM at 1. f_equal. f_equal.
      rewrite enc_key_frame_eq. unfold before_mic. rewrite !enc_key_body_length by exact Ln. cbn [with_mic sent with_data key_mic key_data].
      rewrite repeat_length. change (enc_key_fields _) with f. now rewrite <- !app_assoc. }
  cbn [rbind]. rewrite EI.
  rewrite (decrypt_eq hmac unwrap (hmac_length _ HM) (kw_unwrap_length _ _ KW)). cbv zeta.
  rewrite asm_data_length_at by auto. rewrite Nnat.Nat2N.id. rewrite asm_length.
  destruct (N.testbit (key_information k) 12) eqn:B12.
  - destruct (HK B12) as (-> & NE & LT).
    destruct (Nat.ltb_spec (length p + 4 + length f + length (key_mic k) + 2 + length data + length ([] : bytes)) (length p + 81 + length (key_mic k) + 2)) as [X|_]; [lia|].
    destruct (Nat.ltb_spec (length p + 4 + length f + length (key_mic k) + 2 + length data + length ([] : bytes)) (length p + 81 + length (key_mic k) + 2 + length data)) as [X|_]; [lia|].
    assert (ED : data = wrap kek (pad_key_data kd)) by (unfold data, sent_data; rewrite B12; destruct kd; [congruence|reflexivity]).
    pose proof (padded_length_ge (length kd)) as (_ & G2 & G3 & _). rewrite <- pad_key_data_length in G2, G3.
    assert (LD : length data = length (pad_key_data kd) + 8) by (rewrite ED; now apply (kw_length _ _ KW)).
    destruct (Nat.ltb_spec (length data) 8) as [X|_]; [lia|]. destruct (Nat.ltb_spec (temp + 8) (length data)) as [X|_]; [lia|].
    rewrite asm_data_at by auto. rewrite ED at 1. rewrite (kw_inverse _ _ KW) by (auto using pad_key_data_wf). cbn [rbind].
    rewrite asm_decrypted by auto.
    assert (ER : received_data (key_information k) kd = pad_key_data kd) by (unfold received_data; rewrite B12; destruct kd; [congruence|reflexivity]).
    rewrite ER. clear ER. set (plain := pad_key_data kd) in *.
    assert (EF : asm p (N.of_nat (77 + length (key_mic k) + 2 + length plain)) f (key_mic k) (N.of_nat (length plain)) plain [] = p ++ enc_key_frame (with_data k plain)).
    { rewrite enc_key_frame_eq. unfold asm, before_mic. rewrite enc_key_body_length by exact Ln. cbn [with_data key_mic key_data]. change (enc_key_fields _) with f.
      now rewrite <- !app_assoc, app_nil_r. }
    rewrite EF. unfold pread, gread. rewrite end_bad_lt by (lens; unfold enc_key_frame; lens; lia). rewrite skipn_app_exact by reflexivity.
    rewrite <- (app_nil_r (enc_key_frame _)), rd_key_frame_R; [reflexivity| |exact KM|right; intros X; cbn [with_data key_data] in X; rewrite X in G2; cbn in G2; lia].
    destruct OK as (O1 & O2 & O3 & O4 & O5 & O6 & O7 & O8 & O9 & O10). cbn [sent with_data key_mic key_data key_information key_length key_replay_counter key_nonce key_iv key_rsc] in *.
    repeat (split; [first [assumption|now apply pad_key_data_wf]|]). cbn [with_data key_mic key_data]. lia.
  - cbn [rbind]. replace (received_data (key_information k) kd) with kd by (unfold received_data; now rewrite B12). assert (ED : data = kd) by (unfold data, sent_data; now rewrite B12). 
    assert (EF : asm p (N.of_nat (length (enc_key_body sent))) f (key_mic k) (N.of_nat (length data)) data [] = p ++ enc_key_frame sent).
    { rewrite enc_key_frame_eq. unfold asm, before_mic. cbn [sent with_data key_mic key_data]. change (enc_key_fields _) with f.
      now rewrite <- !app_assoc, app_nil_r. }
    rewrite EF. unfold pread, gread. rewrite end_bad_lt by (lens; unfold enc_key_frame; lens; lia). rewrite skipn_app_exact by reflexivity.
    rewrite <- (app_nil_r (enc_key_frame _)), rd_key_frame_R; [cbn [map_err]; unfold sent; now rewrite ED|exact OK|exact KM|].
    unfold sent. cbn [with_data key_data]. rewrite ED. exact EO.
Qed.
End F.
