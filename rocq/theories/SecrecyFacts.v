(** What sent key frames and the answers of a receiver depend on. *)
From Verif Require Import Base SpecBase BaseFacts StepsFacts Bits BitsFacts Layouts Enums Common CommonFacts Mgmt SpecMgmt MgmtFacts2 SpecElementTypes ElementTypesFacts
  Suites Rsn RsnFacts Data SpecData DataFacts DataFacts2 Eapol SpecEapol EapolFacts KeyMgmt SpecKeyMgmt KeyMgmtFacts KeyMgmtFacts2 KeyMgmtFacts3 KeyMgmtFacts4 KeyMgmtFacts6 KeyMgmtFacts7
  KeyMgmtState KeyMgmtFacts8 Sha1 Aes AesFacts SpecSecrecy.

Lemma the_missing {A} (x y : option A) : (x = None <-> y = None) -> missing x = missing y.
Proof. destruct x, y; intros [F G]; cbn; try reflexivity; [now assert (Some a = None) by now apply G|now assert (Some a = None) by now apply F]. Qed.
Lemma send_outcome_same kck kck' kek kek' info mic data data' head room temp :
  (kck = None <-> kck' = None) -> (kek = None <-> kek' = None) -> data <> 0 -> data' <> 0 -> padded_key_data_length data = padded_key_data_length data' ->
  send_outcome kck kek info mic data head room temp = send_outcome kck' kek' info mic data' head room temp.
Proof.
  intros C K D D' P. unfold send_outcome. rewrite <- !padded_spec, P. rewrite (the_missing _ _ C), (the_missing _ _ K).
  destruct (Nat.eqb_spec data 0); [contradiction|]. destruct (Nat.eqb_spec data' 0); [contradiction|]. reflexivity.
Qed.
(** without room for the padded key data *)
Lemma send_outcome_short kck kek info mic data head room temp : N.testbit info 12 = true -> data <> 0 -> room < head + padded_key_data_length data ->
  send_outcome kck kek info mic data head room temp = Err (if temp <? 24 then TemporaryBufferToShort else BufferTooShort).
Proof.
  intros B D L. unfold send_outcome. rewrite <- padded_spec, B. destruct (temp <? 24); [reflexivity|]. destruct (Nat.eqb_spec data 0); [contradiction|].
  cbn [negb andb]. destruct (Nat.ltb_spec room (head + padded_key_data_length data)); [reflexivity|lia].
Qed.
Lemma ok_key_frame_nonce {P} (k : KeyFrame P) kd : ok_key_frame (with_data k kd) -> length (key_nonce k) = 32.
Proof. intros (_ & _ & _ & L & _). exact L. Qed.
Lemma enc_eapol_length h oui et {P} (k : KeyFrame P) kd : ok_data_header h -> length oui = 3 -> length (key_nonce k) = 32 ->
  length (enc_eapol h oui et (with_data k kd)) = length (enc_eapol h oui et (with_data k [])) + length kd.
Proof.
  intros H LO Ln. rewrite !enc_eapol_eq, !app_length, !enc_key_frame_length by exact Ln. cbn [with_data key_mic key_data length]. lia.
Qed.

Section S.
Context {cfg : Cfg}.
Variables hmac hmac' wrap wrap' : bytes -> bytes -> bytes.
Variables unwrap unwrap' : bytes -> bytes -> option bytes.
Hypothesis HM : hmac_sha1 hmac.
Hypothesis HM' : hmac_sha1 hmac'.
Hypothesis KW : key_wrap wrap unwrap.
Hypothesis KW' : key_wrap wrap' unwrap'.

Lemma sent_same kck kck' kek kek' h oui et (k k' : KeyFrame Container) kd kd' buffer temp :
  ok_data_header h -> length oui = 3 -> wf_bytes oui ->
  Writes (c_write (key_data k)) kd -> Writes (c_write (key_data k')) kd' -> ok_key_frame (with_data k kd) -> ok_key_frame (with_data k' kd') ->
  with_data k tt = with_data k' tt -> has_encrypted_data (key_information k) -> kd <> [] -> kd' <> [] ->
  length (pad_key_data kd) = length (pad_key_data kd') ->
  (kck = None <-> kck' = None) -> (kek = None <-> kek' = None) ->
  wrap (the_key kek) (pad_key_data kd) = wrap' (the_key kek') (pad_key_data kd') ->
  (let packet := enc_key_frame (with_data k (wrap (the_key kek) (pad_key_data kd))) in
   firstn 16 (hmac (the_key kck) packet) = firstn 16 (hmac' (the_key kck') packet)) ->
  strict_end = false \/ (length (enc_eapol h oui et (with_data k kd)) + slack <= length buffer /\ length (enc_eapol h oui et (with_data k' kd')) + slack <= length buffer) ->
  serialize_eapol hmac wrap kck kek (h, Some (mkSnap oui et k)) buffer temp = serialize_eapol hmac' wrap' kck' kek' (h, Some (mkSnap oui et k')) buffer temp.
Proof.
  intros H LO WO W W' OK OK' EK ENC NE NE' LP NC NK EW EM ROOM. cbv zeta in EM. rewrite !pad_key_data_length in LP.
  pose proof (ok_key_frame_nonce _ _ OK) as Ln. pose proof (ok_key_frame_nonce _ _ OK') as Ln'.
  assert (ED : forall d : list N, with_data k d = with_data k' d) by (intros d; exact (f_equal (fun x => with_data x d) EK)).
  assert (EI : key_information k = key_information k') by exact (f_equal (fun x => key_information x) EK).
  assert (EMI : key_mic k = key_mic k') by exact (f_equal (fun x => key_mic x) EK).
  pose proof (enc_eapol_length h oui et k kd H LO Ln) as L1. pose proof (enc_eapol_length h oui et k' kd' H LO Ln') as L2. rewrite <- (ED []) in L2.
  pose proof (padded_length_ge (length kd)) as (P1 & _). pose proof (padded_length_ge (length kd')) as (P2 & _).
  assert (D1 : length kd <> 0) by (destruct kd; [congruence|discriminate]). assert (D2 : length kd' <> 0) by (destruct kd'; [congruence|discriminate]).
  unfold has_encrypted_data in ENC. assert (ENC' : N.testbit (key_information k') 12 = true) by congruence.
  assert (FULL : length (enc_eapol h oui et (with_data k kd)) + slack <= length buffer -> length (enc_eapol h oui et (with_data k' kd')) + slack <= length buffer ->
    serialize_eapol hmac wrap kck kek (h, Some (mkSnap oui et k)) buffer temp = serialize_eapol hmac' wrap' kck' kek' (h, Some (mkSnap oui et k')) buffer temp).
  { intros R R'.
    rewrite (serialize_outcome hmac wrap unwrap HM KW kck kek h oui et k kd) by assumption.
    rewrite (serialize_outcome hmac' wrap' unwrap' HM' KW' kck' kek' h oui et k' kd') by assumption.
    cbv zeta. rewrite <- EI, <- EMI, <- !(ED _).
    assert (SD : sent_data wrap (the_key kek) (key_information k) kd = wrap (the_key kek) (pad_key_data kd)) by (unfold sent_data; rewrite ENC; destruct kd; [congruence|reflexivity]).
    assert (SD' : sent_data wrap' (the_key kek') (key_information k) kd' = wrap (the_key kek) (pad_key_data kd)).
    { rewrite EW. unfold sent_data. rewrite ENC. destruct kd'; [congruence|reflexivity]. }
    rewrite SD, SD'. rewrite (send_outcome_same kck kck' kek kek' _ _ _ (length kd')) by assumption.
    assert (MM : sent_mic hmac (the_key kck) (with_data k (wrap (the_key kek) (pad_key_data kd))) = sent_mic hmac' (the_key kck') (with_data k (wrap (the_key kek) (pad_key_data kd)))).
    { unfold sent_mic. cbn [with_data key_information key_mic]. destruct (N.testbit (key_information k) 8); [exact EM|reflexivity]. }
    rewrite MM. reflexivity. }
  destruct ROOM as [SE|[R R']]; [|exact (FULL R R')].
  assert (SL : slack = 0) by (unfold slack; now rewrite SE). rewrite SL, !Nat.add_0_r in FULL.
  assert (SHORT : length buffer < length (enc_eapol h oui et (with_data k [])) + padded_key_data_length (length kd) ->
    serialize_eapol hmac wrap kck kek (h, Some (mkSnap oui et k)) buffer temp = Err (if temp <? 24 then TemporaryBufferToShort else BufferTooShort)).
  { intros Q. destruct (Nat.lt_ge_cases (length buffer) (length (enc_eapol h oui et (with_data k kd)))) as [G|G].
    - now apply (serialize_short hmac wrap) with kd.
    - rewrite (serialize_outcome hmac wrap unwrap HM KW kck kek h oui et k kd) by (try assumption; rewrite SL; lia).
      cbv zeta. now rewrite send_outcome_short by assumption. }
  assert (SHORT' : length buffer < length (enc_eapol h oui et (with_data k [])) + padded_key_data_length (length kd) ->
    serialize_eapol hmac' wrap' kck' kek' (h, Some (mkSnap oui et k')) buffer temp = Err (if temp <? 24 then TemporaryBufferToShort else BufferTooShort)).
  { intros Q. destruct (Nat.lt_ge_cases (length buffer) (length (enc_eapol h oui et (with_data k' kd')))) as [G|G].
    - now apply (serialize_short hmac' wrap') with kd'.
    - rewrite (serialize_outcome hmac' wrap' unwrap' HM' KW' kck' kek' h oui et k' kd') by (try assumption; rewrite SL; lia).
      cbv zeta. rewrite <- (ED []). now rewrite send_outcome_short by (try assumption; lia). }
  destruct (Nat.lt_ge_cases (length buffer) (length (enc_eapol h oui et (with_data k [])) + padded_key_data_length (length kd))) as [Q|Q].
  - now rewrite SHORT, SHORT'.
  - apply FULL; lia.
Qed.
End S.

Section R.
Context {cfg : Cfg}.
Variable hmac : bytes -> bytes -> bytes.
Variables wrap wrap' : bytes -> bytes -> bytes.
Variables unwrap unwrap' : bytes -> bytes -> option bytes.
Hypothesis HM : hmac_sha1 hmac.
Hypothesis KW : key_wrap wrap unwrap.
Hypothesis KW' : key_wrap wrap' unwrap'.

Lemma plain_same kck kek kek' b temp temp' akm : wf_bytes b ->
  (forall e m, to_decrypt hmac kck b akm e m -> temp = temp' /\ (kek = None <-> kek' = None) /\
     unwrap (the_key kek) (data_at b e m) = unwrap' (the_key kek') (data_at b e m)) ->
  deserialize_plain_in_place hmac unwrap kck kek b temp akm = deserialize_plain_in_place hmac unwrap' kck kek' b temp' akm.
Proof.
  intros W A.
  destruct (eapol_offset_dec hmac unwrap (hmac_length _ HM) (kw_unwrap_length _ _ KW) b W) as [[e O]|NO].
  - rewrite (plain_in_place_offset hmac unwrap _ _ _ _ _ e W O), (plain_in_place_offset hmac unwrap' _ _ _ _ _ e W O).
    destruct (length b <? e + 5); [reflexivity|]. destruct (length b <? e + 7); [reflexivity|]. destruct (key_mic_len akm) as [m|] eqn:KM; [|reflexivity].
    pose proof (key_mic_len_8 _ _ KM) as M8. assert (M : m mod 8 = 0) by (destruct M8 as [->|[->| ->]]; reflexivity).
    destruct (check_mic hmac kck b e m (info_at b e)) as [[]|er|] eqn:C; [|reflexivity|reflexivity].
    apply (check_mic_ok hmac unwrap (hmac_length _ HM) (kw_unwrap_length _ _ KW)) in C; [|exact M].
    rewrite (decrypt_in_place_eq hmac wrap unwrap HM KW), (decrypt_in_place_eq hmac wrap' unwrap' HM KW'). cbv zeta.
    destruct (N.testbit (info_at b e) 12) eqn:B12; [|reflexivity].
    destruct (A e m) as (-> & NK & U); [repeat split; assumption|]. unfold data_at in U.
    destruct kek as [key|], kek' as [key'|]; [|exfalso; destruct NK as [_ X]; discriminate (X eq_refl)|exfalso; destruct NK as [X _]; discriminate (X eq_refl)|reflexivity].
    cbn [the_key] in U. rewrite U. reflexivity.
  - unfold deserialize_plain_in_place. cbn [rbind].
    pose proof (header_size_spec b W) as H. destruct (pread rd_data_header b 0) as [h|er|]; [|reflexivity|tauto].
    cbn [map_err rbind]. unfold get_from. destruct (Nat.leb_spec (dh_length h + 6) (length b)) as [L|]; [|reflexivity]. cbn [ok_or rbind].
    destruct (pread_be_cases 2 (skipn (dh_length h + 6) b) 0 ltac:(discriminate)) as [P1 P2]. rewrite skipn_length in *.
    destruct (Nat.lt_ge_cases (length b) (dh_length h + 8)) as [L8|L8].
    + destruct P1 as [er ->]; [lia|]. reflexivity.
    + rewrite P2 by lia. cbn [map_err rbind]. rewrite between_skipn. replace (dh_length h + 6 + (0 + 2)) with (dh_length h + 8) by lia.
      destruct (N.eqb_spec (be_val (between_bytes b (dh_length h + 6) (dh_length h + 8))) 0x888e) as [E|]; [|reflexivity].
      exfalso. apply (NO (dh_length h + 8)). exists (dh_length h). split; [exact H|]. split; [reflexivity|]. split; [exact L8|].
      rewrite <- (be_bytes_val (between_bytes b (dh_length h + 6) (dh_length h + 8))) by (now apply between_wf).
      rewrite between_length by lia. replace (dh_length h + 8 - (dh_length h + 6)) with 2 by lia. rewrite E. reflexivity.
Qed.
Lemma received_same kck kek kek' b temp temp' akm (with_fcs : bool) : wf_bytes b ->
  (forall e m, to_decrypt hmac kck (frame_part with_fcs b) akm e m -> temp = temp' /\ (kek = None <-> kek' = None) /\
     let data := data_at (frame_part with_fcs b) e m in unwrap (the_key kek) data = unwrap' (the_key kek') data) ->
  deserialize_in_place hmac unwrap kck kek b temp akm with_fcs = deserialize_in_place hmac unwrap' kck kek' b temp' akm with_fcs.
Proof.
  intros W A. unfold deserialize_in_place, frame_part in *. destruct with_fcs; [|now apply plain_same].
  destruct (length b <? 4); [reflexivity|]. rewrite (plain_same kck kek kek' (firstn (length b - 4) b) temp temp' akm (wf_firstn _ _ W) A). reflexivity.
Qed.
Lemma no_oracle kck kek kek' b temp temp' akm (with_fcs : bool) : wf_bytes b ->
  (forall e m, ~ to_decrypt hmac kck (frame_part with_fcs b) akm e m) ->
  deserialize_in_place hmac unwrap kck kek b temp akm with_fcs = deserialize_in_place hmac unwrap' kck kek' b temp' akm with_fcs /\
  snd (deserialize_in_place hmac unwrap kck kek b temp akm with_fcs) = b.
Proof.
  intros W A. split; [apply received_same; [exact W|]; intros e m X; elim (A e m X)|].
  destruct (deserialize_in_place hmac unwrap kck kek b temp akm with_fcs) as [r b'] eqn:D. cbn [snd].
  apply in_place_split in D as [(-> & _)|(a & D & ->)]; [reflexivity|].
  apply (plain_in_place_cases hmac wrap unwrap HM KW) in D as [(-> & _)|(e & m & plain & (O & KM & PM & HE & _) & _)]; [apply frame_fcs| |now apply frame_part_wf].
  elim (A e m). repeat split; assumption.
Qed.
End R.

(** ** Witnesses *)
(** the frame of [odd_frame] without its error: anybody can send it, a receiver with a KCK decrypts it *)
Definition asked_frame : bytes := overwrite (raw_frame 0x1080 16 24 (aes_wrap test_kek test_mic)) 35 [119]%N.
Lemma oracle_refuted {cfg : Cfg} : ~ (forall kck kek kek' b temp akm with_fcs, key_mic_len akm = Some 16 -> wf_bytes b -> 
  (forall key : bytes, kck = Some key -> ~ exists e, eapol_offset (frame_part with_fcs b) e /\ mic_correct hmac_sha1_of key (frame_part with_fcs b) e 16) ->
  kck <> None -> kek <> None -> kek' <> None ->
  deserialize_eapol hmac_sha1_of aes_unwrap kck kek b temp akm with_fcs = deserialize_eapol hmac_sha1_of aes_unwrap kck kek' b temp akm with_fcs).
Proof.
  assert (AF : asked_frame = overwrite (raw_frame 0x1080 16 24 wrapped_mic) 35 [119]%N) by (unfold asked_frame; now rewrite wrapped_mic_eq).
  rewrite ?AF.
  intros A. specialize (A (Some test_kck) (Some test_kek) (Some test_kck) asked_frame 100 Ak_Psk false eq_refl). rewrite AF in *.
  set (asked_frame := overwrite (raw_frame 0x1080 16 24 wrapped_mic) 35 [119]%N) in *.
  assert (W : wf_bytes asked_frame) by (apply wf_bytesb_spec; vm_compute; reflexivity).
  assert (X : deserialize_eapol hmac_sha1_of aes_unwrap (Some test_kck) (Some test_kek) asked_frame 100 Ak_Psk false =
              deserialize_eapol hmac_sha1_of aes_unwrap (Some test_kck) (Some test_kck) asked_frame 100 Ak_Psk false).
  { apply A; [exact W| |discriminate..]. intros key E [e [O [_ M]]]. injection E as <-.
    assert (Ee : e = 32).
    { apply (eapol_offset_unique asked_frame); [exact O|]. exists 24. split; [reflexivity|]. split; [reflexivity|]. split; [vm_compute; lia|reflexivity]. }
    subst e. vm_compute in M. discriminate M. }
  assert (N0 : aes_unwrap test_kck wrapped_mic = None) by (vm_compute; reflexivity).
  set (un := from_table [(test_kck, wrapped_mic, None)] known_unwrap2).
  assert (U : forall k m, aes_unwrap k m = un k m).
  { intros k m. rewrite known_unwrap2_eq. apply from_table_eq. apply Forall_cons; [|apply Forall_nil]. cbn [fst snd]. now rewrite <- known_unwrap2_eq. }
  rewrite !(deser_ext _ _ _ _ _ _ _ _ _ _ known_hmac2_eq U) in X. unfold un, asked_frame in X.
  revert X. destruct cfg as [[] [] []]; vm_compute; discriminate.
Qed.

(** ** A key wrap that makes the same of other key data *)
Definition swap (p p' x : bytes) : bytes := if list_eq_dec N.eq_dec x p then p' else if list_eq_dec N.eq_dec x p' then p else x.
Lemma swap_swap p p' x : swap p p' (swap p p' x) = x.
Proof. unfold swap. repeat (destruct (list_eq_dec _ _ _)); congruence. Qed.
Lemma swap_length p p' x : length p = length p' -> length (swap p p' x) = length x.
Proof. intros L. unfold swap. repeat (destruct (list_eq_dec _ _ _)); congruence. Qed.
Lemma swap_wf p p' x : wf_bytes p -> wf_bytes p' -> wf_bytes x -> wf_bytes (swap p p' x).
Proof. intros. unfold swap. repeat (destruct (list_eq_dec _ _ _)); assumption. Qed.
Lemma swap_wrap wrap unwrap p p' : key_wrap wrap unwrap -> wf_bytes p -> wf_bytes p' -> length p = length p' ->
  key_wrap (fun kek x => wrap kek (swap p p' x)) (fun kek c => option_map (swap p p') (unwrap kek c)).
Proof.
  intros KW W W' L. constructor.
  - intros. rewrite (kw_length _ _ KW) by (rewrite swap_length; assumption). now rewrite swap_length.
  - intros. apply (kw_wf _ _ KW). now apply swap_wf.
  - intros. rewrite (kw_inverse _ _ KW) by (rewrite ?swap_length by assumption; auto using swap_wf). cbn [option_map]. now rewrite swap_swap.
  - intros kek c x. destruct (unwrap kek c) as [y|] eqn:U; [|discriminate]. cbn [option_map]. intros X. injection X as <-. rewrite swap_length by assumption.
    exact (kw_unwrap_length _ _ KW _ _ _ U).
  - intros kek c x Wc. destruct (unwrap kek c) as [y|] eqn:U; [|discriminate]. cbn [option_map]. intros X. injection X as <-. apply swap_wf; auto. exact (kw_unwrap_wf _ _ KW _ _ _ Wc U).
Qed.
Lemma any_data {cfg : Cfg} hmac wrap unwrap kd kd' : hmac_sha1 hmac -> key_wrap wrap unwrap -> wf_bytes kd -> wf_bytes kd' -> kd <> [] -> kd' <> [] ->
  length (pad_key_data kd) = length (pad_key_data kd') ->
  exists wrap' unwrap', key_wrap wrap' unwrap' /\
  forall kck kek h oui et (k k' : KeyFrame Container) buffer temp,
  ok_data_header h -> length oui = 3 -> wf_bytes oui ->
  Writes (c_write (key_data k)) kd -> Writes (c_write (key_data k')) kd' -> ok_key_frame (with_data k kd) -> ok_key_frame (with_data k' kd') ->
  with_data k tt = with_data k' tt -> has_encrypted_data (key_information k) ->
  strict_end = false \/ (length (enc_eapol h oui et (with_data k kd)) + slack <= length buffer /\ length (enc_eapol h oui et (with_data k' kd')) + slack <= length buffer) ->
  serialize_eapol hmac wrap kck kek (h, Some (mkSnap oui et k)) buffer temp = serialize_eapol hmac wrap' kck kek (h, Some (mkSnap oui et k')) buffer temp.
Proof.
  intros HM KW W W' NE NE' L.
  pose proof (swap_wrap wrap unwrap (pad_key_data kd) (pad_key_data kd') KW (pad_key_data_wf _ W) (pad_key_data_wf _ W') L) as KW'.
  eexists. eexists. split; [exact KW'|].
  intros kck kek h oui et k k' buffer temp H LO WO WK WK' OK OK' EK ENC ROOM.
  apply (sent_same hmac hmac wrap _ unwrap _ HM HM KW KW' kck kck kek kek h oui et k k' kd kd'); try assumption; try tauto; [|reflexivity].
  cbv beta. f_equal. unfold swap. destruct (list_eq_dec _ _ _) as [->|]; [reflexivity|]. destruct (list_eq_dec _ _ _); congruence.
Qed.

(** ** Examples *)
Lemma two_data_ok : let k x n := mkKF 0x100a 16 1 (repeat 7%N 32) 0 0 (repeat 0%N 16) (c_bytes (repeat x n)) in
  length (pad_key_data (repeat 1%N 17)) = length (pad_key_data (repeat 2%N 20)) /\ wf_bytes (repeat 1%N 17) /\ wf_bytes (repeat 2%N 20) /\
  (forall cfg : Cfg, Writes (c_write (key_data (k 1%N 17))) (repeat 1%N 17) /\ Writes (c_write (key_data (k 2%N 20))) (repeat 2%N 20)) /\
  ok_key_frame (with_data (k 1%N 17) (repeat 1%N 17)) /\ ok_key_frame (with_data (k 2%N 20) (repeat 2%N 20)) /\
  with_data (k 1%N 17) tt = with_data (k 2%N 20) tt /\ has_encrypted_data 0x100a.
Proof.
  cbv zeta. split; [reflexivity|]. split; [apply wf_bytesb_spec; reflexivity|]. split; [apply wf_bytesb_spec; reflexivity|].
  split; [intros cfg; split; apply c_bytes_T|].
  split; [unfold ok_key_frame; cbn -[repeat]; repeat split; try reflexivity; apply wf_bytesb_spec; reflexivity|].
  split; [unfold ok_key_frame; cbn -[repeat]; repeat split; try reflexivity; apply wf_bytesb_spec; reflexivity|]. split; reflexivity.
Qed.
Lemma tampered_frame : let b := overwrite test_frame 60 [0x55]%N in
  wf_bytes b /\ (forall e m, ~ to_decrypt hmac_sha1_of (Some test_kck) (frame_part false b) Ak_Psk e m).
Proof.
  cbv zeta. split; [apply wf_bytesb_spec; vm_compute; reflexivity|]. intros e m (O & KM & PM & _). cbn [frame_part] in *. injection KM as <-.
  assert (Ee : e = 32).
  { apply (eapol_offset_unique _ _ _ O). exists 24. split; [vm_compute; reflexivity|]. split; [reflexivity|]. split; [vm_compute; lia|vm_compute; reflexivity]. }
  subst e. destruct PM as (key & E & _ & _ & M); [vm_compute; reflexivity|]. injection E as <-. rewrite known_hmac_eq in M. vm_compute in M. discriminate M.
Qed.
Lemma decrypted_frame : to_decrypt hmac_sha1_of (Some test_kck) (frame_part false test_frame) Ak_Psk 32 16 /\ aes_unwrap test_kek (data_at test_frame 32 16) = Some test_data.
Proof.
  split; [|rewrite known_unwrap_eq; vm_compute; reflexivity]. split; [apply test_frame_ok|]. split; [reflexivity|]. split; [|vm_compute; reflexivity].
  intros _. exists test_kck. split; [reflexivity|]. split; [lia|]. split; [vm_compute; lia|rewrite known_hmac_eq; vm_compute; reflexivity].
Qed.
