(** Facts about key management: serialising and deserialising, authentication, witnesses with SHA-1 and AES. *)
From Verif Require Import Base SpecBase BaseFacts Bits Enums Suites Mgmt SpecMgmt MgmtFacts2 Data SpecData DataFacts5 Rsn Eapol SpecEapol EapolFacts
  KeyMgmt SpecKeyMgmt KeyMgmtFacts2 KeyMgmtFacts3 KeyMgmtFacts4 KeyMgmtFacts5 Sha1 Aes AesFacts.

Section F.
Context {cfg : Cfg}.
Variable hmac : bytes -> bytes -> bytes.
Variable wrap : bytes -> bytes -> bytes.
Variable unwrap : bytes -> bytes -> option bytes.
Hypothesis HM : hmac_sha1 hmac.
Hypothesis KW : key_wrap wrap unwrap.

Theorem round_trip kck kek kck_opt kek_opt h oui (k : KeyFrame Container) kd akm buffer temp temp' fcs (with_fcs : bool) :
  ok_data_header h -> length oui = 3 -> wf_bytes oui ->
  Writes (c_write (key_data k)) kd -> wf_bytes kd ->
  let info := key_information k in
  let sent := with_data k (sent_data wrap kek info kd) in
  ok_key_frame sent -> key_mic k = repeat 0%N 16 -> key_mic_len akm = Some 16 ->
  (has_mic info -> kck_opt = Some kck) ->
  (has_encrypted_data info -> kek_opt = Some kek /\ kd <> [] /\ length (key_data sent) <= temp /\ length (pad_key_data kd) <= temp') ->
  strict_end = false \/ kd <> [] -> 24 <= temp ->
  let mic := if N.testbit info 8 then frame_mic hmac kck sent else repeat 0%N 16 in
  let frame := enc_eapol h oui 0x888e (with_mic sent mic) in
  length frame + slack <= length buffer -> length fcs = (if with_fcs then 4 else 0) ->
  serialize_eapol hmac wrap kck_opt kek_opt (h, Some (mkSnap oui 0x888e k)) buffer temp = Ok (frame ++ skipn (length frame) buffer, length frame) /\
  deserialize_eapol hmac unwrap kck_opt kek_opt (frame ++ fcs) temp' akm with_fcs = Ok (with_data (with_mic k mic) (received_data info kd)).
Proof.
  intros H LO WO WR WKD info sent OK ZM KM HC HK ST T24 mic frame LB LF.
  assert (EM : mic = sent_mic hmac kck sent).
  { unfold mic, sent_mic, frame_mic. change (key_information sent) with info. destruct (N.testbit info 8).
    - f_equal. f_equal. f_equal. unfold sent, with_mic, with_data. cbn. now rewrite ZM.
    - change (key_mic sent) with (key_mic k). now rewrite ZM. }
  assert (LM : length mic = 16).
  { unfold mic. destruct (N.testbit info 8); [|apply repeat_length]. unfold frame_mic. rewrite firstn_length, (hmac_length _ HM). reflexivity. }
  assert (WM : wf_bytes mic).
  { unfold mic. destruct (N.testbit info 8); [apply wf_firstn, (hmac_wf _ HM)|apply wf_bytesb_spec; reflexivity]. }
  split.
  - unfold frame. rewrite EM. apply (serialize_spec hmac wrap unwrap HM KW kck kek); auto.
    + destruct OK as (O1 & O2 & O3 & O4 & O5 & O6 & O7 & O8 & O9 & O10). cbn [sent with_data key_mic key_data key_information key_length key_replay_counter key_nonce key_iv key_rsc] in *.
      repeat (split; [assumption|]). cbn [with_data key_mic key_data].
      pose proof (sent_data_le wrap unwrap KW kek info kd). lia.
    + intros X. split; [now apply HC|]. rewrite ZM. apply repeat_length.
    + intros X _. now apply HK.
    + intros X. apply HK, X.
    + unfold frame in LB. now rewrite EM in LB.
  - pose proof (deser_accepts hmac wrap unwrap HM KW kck kek kck_opt kek_opt h oui (with_mic k mic) kd akm temp' fcs with_fcs) as D.
    cbv zeta in D. change (with_data (with_mic k mic) (sent_data wrap kek (key_information (with_mic k mic)) kd)) with (with_mic sent mic) in D.
    apply D; auto; clear D; change (key_information (with_mic k mic)) with info; change (key_mic (with_mic k mic)) with mic; rewrite ?LM.
    + destruct OK as (O1 & O2 & O3 & O4 & O5 & O6 & O7 & O8 & O9 & O10). cbn [sent with_mic with_data key_mic key_data key_information key_length key_replay_counter key_nonce key_iv key_rsc] in *.
      repeat (split; [assumption|]). cbn [with_data with_mic key_mic key_data]. rewrite LM. rewrite ZM in O10. exact O10.
    + exact KM.
    + intros X. split; [now apply HC|]. split; [lia|]. unfold mic at 1. unfold has_mic in X. rewrite X. reflexivity.
    + intros X. destruct (HK X) as (-> & NE & _ & LT). auto.
Qed.

Lemma serialized kck kek kck_opt kek_opt h oui et (k : KeyFrame Container) kd buffer temp :
  ok_data_header h -> length oui = 3 -> wf_bytes oui ->
  Writes (c_write (key_data k)) kd -> ok_key_frame (with_data k kd) ->
  (has_mic (key_information k) -> kck_opt = Some kck /\ length (key_mic k) = 16) ->
  (has_encrypted_data (key_information k) -> kd <> [] -> kek_opt = Some kek) ->
  24 <= temp -> (has_encrypted_data (key_information k) -> length (sent_data wrap kek (key_information k) kd) <= temp) ->
  let sent := with_data k (sent_data wrap kek (key_information k) kd) in
  let frame := enc_eapol h oui et (with_mic sent (sent_mic hmac kck sent)) in
  length frame + slack <= length buffer ->
  serialize_eapol hmac wrap kck_opt kek_opt (h, Some (mkSnap oui et k)) buffer temp = Ok (frame ++ skipn (length frame) buffer, length frame).
Proof. apply (serialize_spec hmac wrap unwrap HM KW). Qed.

(** the frame without FCS *)
Lemma accepted kck kek b temp akm (with_fcs : bool) k : wf_bytes b ->
  deserialize_eapol hmac unwrap kck kek b temp akm with_fcs = Ok k ->
  let b' := if with_fcs then firstn (length b - 4) b else b in
  exists e m version reserved, eapol_offset b' e /\ key_mic_len akm = Some m /\ length (key_mic k) = m /\ ok_key_frame k /\ length reserved = 8 /\
    e + 81 + m + 2 + data_length_at b' e m <= length b' /\
    between_bytes b' e (e + 2) = [version; 3]%N /\
    between_bytes b' (e + 4) (e + 81) = received_fields reserved k /\
    between_bytes b' (e + 81) (e + 81 + m) = key_mic k /\
    key_information k = info_at b' e /\
    passes_mic hmac kck b' e m /\
    (let data := between_bytes b' (e + 81 + m + 2) (e + 81 + m + 2 + data_length_at b' e m) in
     if N.testbit (key_information k) 12 then exists key, kek = Some key /\ unwrap key data = Some (key_data k)
     else key_data k = data).
Proof.
  intros W D b'.
  assert (D' : deserialize_eapol hmac unwrap kck kek b' temp akm false = Ok k).
  { unfold b'. destruct with_fcs; [|exact D]. rewrite deser_fcs in D. destruct (length b <? 4); [destruct overflow_checks; discriminate|exact D]. }
  apply (deser_accepted hmac unwrap (hmac_length _ HM) (kw_unwrap_length _ _ KW) (kw_unwrap_wf _ _ KW)) in D'; [exact D'|].
  unfold b'. destruct with_fcs; [apply wf_firstn, W|exact W].
Qed.
Lemma authenticated kck kek b temp akm (with_fcs : bool) k : wf_bytes b ->
  deserialize_eapol hmac unwrap kck kek b temp akm with_fcs = Ok k -> has_mic (key_information k) ->
  let b' := if with_fcs then firstn (length b - 4) b else b in
  exists key e, kck = Some key /\ eapol_offset b' e /\
    between_bytes b' (e + 81) (e + 81 + length (key_mic k)) = key_mic k /\ length (key_mic k) <= 20 /\
    key_mic k = firstn (length (key_mic k))
      (hmac key (between_bytes b' e (e + 81) ++ repeat 0%N (length (key_mic k)) ++ skipn (e + 81 + length (key_mic k)) b')).
Proof.
  intros W D X b'. destruct (accepted _ _ _ _ _ _ _ W D) as (e & m & v & r & O & KM & LM & _ & _ & _ & _ & _ & EM & EI & P & _).
  fold b' in O, EM, EI, P. subst m. rewrite EI in X. destruct (P X) as (key & K & L & _ & C). exists key, e.
  repeat (split; [assumption|]). rewrite <- C. symmetry. exact EM.
Qed.
Lemma deser_panics_fcs kck kek b temp akm : wf_bytes b ->
  deserialize_eapol hmac unwrap kck kek b temp akm true = Panic <->
  (length b < 4 /\ overflow_checks = true) \/ (4 <= length b /\ deserialize_panics hmac kck kek (firstn (length b - 4) b) temp akm).
Proof.
  intros W. rewrite deser_fcs. destruct (Nat.ltb_spec (length b) 4) as [L|L].
  - destruct overflow_checks; split; try congruence; try (intros [[? ?]|[? ?]]; try congruence; lia). intros _. left. auto.
  - rewrite (deser_panics hmac unwrap (hmac_length _ HM) (kw_unwrap_length _ _ KW)) by (apply wf_firstn, W). split; [auto|]. intros [[? ?]|[_ X]]; [lia|exact X].
Qed.
Lemma deser_panics_plain kck kek b temp akm : wf_bytes b ->
  deserialize_eapol hmac unwrap kck kek b temp akm false = Panic <-> deserialize_panics hmac kck kek b temp akm.
Proof. apply (deser_panics hmac unwrap (hmac_length _ HM) (kw_unwrap_length _ _ KW)). Qed.
End F.
(** If no MIC is announced, HMAC and KCK are not used. *)
Lemma not_announced {cfg : Cfg} hmac hmac' unwrap kck kck' kek b temp akm e : hmac_sha1 hmac -> hmac_sha1 hmac' ->
  (forall kek c p, unwrap kek c = Some p -> length p + 8 = length c) -> wf_bytes b ->
  eapol_offset b e -> ~ has_mic (info_at b e) ->
  deserialize_eapol hmac unwrap kck kek b temp akm false = deserialize_eapol hmac' unwrap kck' kek b temp akm false.
Proof.
  intros HM HM' UL W O N.
  rewrite (deser_offset hmac unwrap (hmac_length _ HM) UL _ _ _ _ _ _ W O), (deser_offset hmac' unwrap (hmac_length _ HM') UL _ _ _ _ _ _ W O).
  unfold check_mic. rewrite ki_key_mic_bit. unfold has_mic in N. destruct (N.testbit (info_at b e) 8); [congruence|reflexivity].
Qed.
(** The FCS is not looked at. *)
Lemma fcs_ignored {cfg : Cfg} hmac unwrap kck kek b fcs fcs' temp akm : length fcs = 4 -> length fcs' = 4 ->
  deserialize_eapol hmac unwrap kck kek (b ++ fcs) temp akm true = deserialize_eapol hmac unwrap kck kek (b ++ fcs') temp akm true.
Proof.
  intros L L'. rewrite !deser_fcs, !app_length, L, L'. destruct (length b + 4 <? 4); [reflexivity|].
  now rewrite !firstn_app_exact by lia.
Qed.

(** ** Tables of computed values: the witnesses below hash and encrypt once, not once for each configuration *)
Definition from_table {V} (tbl : list (bytes * bytes * V)) (f : bytes -> bytes -> V) (k m : bytes) : V :=
  match find (fun e => if list_eq_dec N.eq_dec (fst (fst e)) k then if list_eq_dec N.eq_dec (snd (fst e)) m then true else false else false) tbl with
  | Some e => snd e
  | None => f k m
  end.
Lemma from_table_eq {V} tbl (f : bytes -> bytes -> V) : Forall (fun e => f (fst (fst e)) (snd (fst e)) = snd e) tbl -> forall k m, f k m = from_table tbl f k m.
Proof.
  intros F k m. unfold from_table. match goal with |- _ = match ?x with _ => _ end => destruct x as [e|] eqn:E end; [|reflexivity]. apply find_some in E as [J E].
  rewrite Forall_forall in F. specialize (F e J).
  destruct (list_eq_dec _ (fst (fst e)) k) as [<-|]; [|discriminate]. destruct (list_eq_dec _ (snd (fst e)) m) as [<-|]; [|discriminate]. exact F.
Qed.
Lemma rbind_ext {E A B} (r : Res E A) (f g : A -> Res E B) : (forall x, f x = g x) -> rbind r f = rbind r g.
Proof. intros H. destruct r; [apply H|reflexivity|reflexivity]. Qed.
Lemma deser_ext {cfg : Cfg} hmac hmac' unwrap unwrap' kck kek b temp akm fcs : (forall k m, hmac k m = hmac' k m) -> (forall k m, unwrap k m = unwrap' k m) ->
  deserialize_eapol hmac unwrap kck kek b temp akm fcs = deserialize_eapol hmac' unwrap' kck kek b temp akm fcs.
Proof.
  intros H U. unfold deserialize_eapol. apply rbind_ext. intros b'. apply rbind_ext. intros h. apply rbind_ext. intros r. apply rbind_ext. intros et.
  destruct (negb _); [reflexivity|]. apply rbind_ext. intros r'. apply rbind_ext. intros i. apply rbind_ext. intros ml.
  replace (check_mic hmac' kck b' (dh_length h + 8) ml i) with (check_mic hmac kck b' (dh_length h + 8) ml i).
  2:{ unfold check_mic. destruct (ki_key_mic i); [|reflexivity]. do 5 (apply rbind_ext; intro). now rewrite H. }
  apply rbind_ext. intros _. 
  replace (decrypt_key_data unwrap' kek b' (dh_length h + 8) ml i temp) with (decrypt_key_data unwrap kek b' (dh_length h + 8) ml i temp); [reflexivity|].
  unfold decrypt_key_data. destruct (ki_encrypted_key_data i); [|reflexivity]. do 5 (apply rbind_ext; intro). destruct (_ <? _); [reflexivity|]. now rewrite U.
Qed.
Lemma ser_ext {cfg : Cfg} hmac hmac' wrap wrap' kck kek d b temp : (forall k m, hmac k m = hmac' k m) -> (forall k m, wrap k m = wrap' k m) ->
  serialize_eapol hmac wrap kck kek d b temp = serialize_eapol hmac' wrap' kck kek d b temp.
Proof.
  intros H U. unfold serialize_eapol. destruct (_ <? _); [reflexivity|].
  apply rbind_ext. intros [? ?]. apply rbind_ext. intros s. apply rbind_ext. intros [? ?]. apply rbind_ext. intros ds. apply rbind_ext. intros [? ?].
  do 2 (apply rbind_ext; intro).
  match goal with |- rbind ?x _ = rbind ?y _ => replace x with y end.
  2:{ destruct (_ && _); [|reflexivity]. do 3 (apply rbind_ext; intro). destruct (_ <? _); [reflexivity|]. now rewrite U. }
  apply rbind_ext. intros [? ?]. destruct (ki_key_mic _); [|reflexivity]. do 2 (apply rbind_ext; intro). now rewrite H.
Qed.


(** ** Witnesses *)
(** the frame of the repository's test *)
Definition test_frame : bytes := Eval vm_compute in
  be_bytes 211 0x08022c00000d9382363a000c4182b255000c4182b255c0fcaaaa03000000888e020300af0213ca001000000000000000013e8e967dacd960324cac5b6aa721235bf57b949771c867989f49d04ed47c6933f57b949771c867989f49d04ed47c6934cf0200000000000000000000000000007d0af6df51e99cde7a187453f0f935370050cfa72cde35b2c1e2319255806ab364179fd9673041b9a5939fa1a2010d2ac794e25168055f794ddc1fdfae3521f4446bfd11da98345f543df6ce199df8fe48f8cdd17adca87bf45711183c496d41aa0c.
Definition test_kck : bytes := Eval vm_compute in be_bytes 16 0xb1cd792716762903f723424cd7d16511.
Definition test_kek : bytes := Eval vm_compute in be_bytes 16 0x82a644133bfa4e0b75d96d2308358433.
Definition test_header : DataHeader :=
  mkDH Dt_Data 2 0x2c (be_bytes 6 0x000d9382363a) (be_bytes 6 0x000c4182b255) (be_bytes 6 0x000c4182b255) 0xfcc0 None None None.
Definition test_key_frame (mic data : bytes) : KeyFrame bytes :=
  mkKF 0x13ca 16 1 (be_bytes 32 0x3e8e967dacd960324cac5b6aa721235bf57b949771c867989f49d04ed47c6933) 0xf57b949771c867989f49d04ed47c6934 0xcf02000000000000 mic data.
Definition test_mic : bytes := Eval vm_compute in be_bytes 16 0x7d0af6df51e99cde7a187453f0f93537.
(** RSN element, GTK KDE and padding *)
Definition test_data : bytes := Eval vm_compute in be_bytes 72 0x30180100000fac020200000fac04000fac020100000fac020000dd26000fac010200ee22041a83853263474c38811352282071c122359b7c35a7e7d034f3cd6ac565dd0000000000.
(** the part of [test_frame] its MIC covers, and those of [small_frame] *)
Definition test_blanked (b : bytes) : bytes := firstn 81 (skipn 32 b) ++ repeat 0%N 16 ++ skipn 129 b.
Definition small_key_frame (info : N) (mic data : bytes) : bytes := enc_key_frame (mkKF info 16 1 (repeat 7%N 32) 0 0 mic data).
(** header and LLC of [test_frame], then key information [info], [m] bytes of MIC and a key data length *)
Definition raw_frame (info : N) (m : nat) (dl : N) (data : bytes) : bytes :=
  firstn 32 test_frame ++ [2; 3; 0; 0; 2]%N ++ be_bytes 2 info ++ repeat 0%N 74 ++ repeat 0%N m ++ be_bytes 2 dl ++ data.
Definition hmac_table : list (bytes * bytes * bytes) :=
  [(test_kck, test_blanked test_frame, be_bytes 20 0x7d0af6df51e99cde7a187453f0f935377bab750a);
   (test_kck, test_blanked (overwrite test_frame 60 [0x55]%N), be_bytes 20 0xda1930b086b06f8149fa829b2f48e1c22daf15cb);
   (test_kck, small_key_frame 0x010a (repeat 1%N 16) [1; 2; 3]%N, be_bytes 20 0x6251d6c8d3b2c502fcf9b92b0e85c3df60471244);
   (test_kck, small_key_frame 0x010a (repeat 0%N 16) [1; 2; 3]%N, be_bytes 20 0x97f305cf4d527a109e5098e86c9a9a8a8c18672d);
   (test_kck, small_key_frame 0x110a (repeat 0%N 16) [], be_bytes 20 0x5d3b2bbfa63b3b8fb4bb1f5ccef4987f1da7fa98);
   (test_kck, firstn 81 (skipn 32 (raw_frame 0x0100 24 0 [])) ++ repeat 0%N 24 ++ skipn 137 (raw_frame 0x0100 24 0 []),
    be_bytes 20 0x6738f78bbb804f11347a6e100364ff31865d9798)].
Definition test_wrapped : bytes := Eval vm_compute in be_bytes 80 0xcfa72cde35b2c1e2319255806ab364179fd9673041b9a5939fa1a2010d2ac794e25168055f794ddc1fdfae3521f4446bfd11da98345f543df6ce199df8fe48f8cdd17adca87bf45711183c496d41aa0c.
Definition known_hmac : bytes -> bytes -> bytes := from_table hmac_table hmac_sha1_of.
Definition known_wrap : bytes -> bytes -> bytes := from_table [(test_kek, test_data, test_wrapped)] aes_wrap.
Definition known_unwrap : bytes -> bytes -> option bytes := from_table [(test_kek, test_wrapped, Some test_data)] aes_unwrap.
Lemma known_hmac_eq k m : hmac_sha1_of k m = known_hmac k m.
Proof. apply from_table_eq. do 6 (apply Forall_cons; [vm_compute; reflexivity|]). apply Forall_nil. Qed.
Lemma known_wrap_eq k m : aes_wrap k m = known_wrap k m.
Proof. apply from_table_eq. apply Forall_cons; [vm_compute; reflexivity|]. apply Forall_nil. Qed.
Lemma known_unwrap_eq k m : aes_unwrap k m = known_unwrap k m.
Proof.
  apply from_table_eq. apply Forall_cons; [|apply Forall_nil]. cbn [fst snd].
  replace test_wrapped with (aes_wrap test_kek test_data) by (rewrite known_wrap_eq; reflexivity).
  apply (kw_inverse _ _ aes_key_wrap); [apply Nat.leb_le; reflexivity|reflexivity|apply wf_bytesb_spec; reflexivity].
Qed.
Local Ltac tables := rewrite ?(deser_ext _ _ _ _ _ _ _ _ _ _ known_hmac_eq known_unwrap_eq), ?(ser_ext _ _ _ _ _ _ _ _ _ known_hmac_eq known_wrap_eq).
Lemma test_deserialize {cfg : Cfg} :
  deserialize_eapol hmac_sha1_of aes_unwrap (Some test_kck) (Some test_kek) test_frame 100 Ak_Psk false = Ok (test_key_frame test_mic test_data).
Proof. tables. destruct cfg as [[] [] []]; vm_compute; reflexivity. Qed.
Lemma test_serialize {cfg : Cfg} : native_le = true ->
  serialize_eapol hmac_sha1_of aes_wrap (Some test_kck) (Some test_kek) (test_header, Some (mkSnap [0; 0; 0]%N 0x888e (with_data (test_key_frame (repeat 0%N 16) []) (c_bytes test_data))))
    (repeat 0%N 300) 100 = Ok (test_frame ++ repeat 0%N 89, 211).
Proof. intros NL. tables. destruct cfg as [[] [] []]; try discriminate NL; vm_compute; reflexivity. Qed.

(** a frame whose MIC field is not zero when it is given to the serialiser *)
Definition small_frame (info : N) (mic : bytes) (data : bytes) : EapolDataFrame :=
  (test_header, Some (mkSnap [0; 0; 0]%N 0x888e (mkKF info 16 1 (repeat 7%N 32) 0 0 mic (c_bytes data)))).
Definition send_and_receive {cfg : Cfg} (info : N) (mic : bytes) (data : bytes) (akm : AkmType) : option (Res EapolSerdeError (KeyFrame bytes)) :=
  match serialize_eapol hmac_sha1_of aes_wrap (Some test_kck) (Some test_kek) (small_frame info mic data) (repeat 0%N 300) 100 with
  | Ok (buffer, n) => Some (deserialize_eapol hmac_sha1_of aes_unwrap (Some test_kck) (Some test_kek) (firstn n buffer) 100 akm false)
  | _ => None
  end.
Lemma send_and_receive_of {cfg : Cfg} info mic data akm : send_and_receive info mic data akm =
  match serialize_eapol known_hmac known_wrap (Some test_kck) (Some test_kek) (small_frame info mic data) (repeat 0%N 300) 100 with
  | Ok (buffer, n) => Some (deserialize_eapol known_hmac known_unwrap (Some test_kck) (Some test_kek) (firstn n buffer) 100 akm false)
  | _ => None
  end.
Proof. unfold send_and_receive. tables. destruct (serialize_eapol _ _ _ _ _ _ _) as [[b n]|e|]; [|reflexivity|reflexivity]. now tables. Qed.
Lemma mic_input_witness {cfg : Cfg} : send_and_receive 0x010a (repeat 1%N 16) [1; 2; 3]%N Ak_Psk = Some (Err InvalidMic).
Proof. rewrite send_and_receive_of. destruct cfg as [[] [] []]; vm_compute; reflexivity. Qed.
Lemma empty_data_witness {cfg : Cfg} : send_and_receive 0x110a (repeat 0%N 16) [] Ak_Psk = Some Panic.
Proof. rewrite send_and_receive_of. destruct cfg as [[] [] []]; vm_compute; reflexivity. Qed.
Lemma long_mic_witness {cfg : Cfg} :
  serialize_eapol hmac_sha1_of aes_wrap (Some test_kck) (Some test_kek) (small_frame 0x010a (repeat 0%N 24) [1; 2; 3]%N) (repeat 0%N 300) 100 = Panic.
Proof. tables. destruct cfg as [[] [] []]; vm_compute; reflexivity. Qed.
Lemma short_temp_witness {cfg : Cfg} :
  serialize_eapol hmac_sha1_of aes_wrap (Some test_kck) (Some test_kek) (small_frame 0x100a (repeat 0%N 16) (repeat 1%N 17)) (repeat 0%N 300) 31 = Panic.
Proof. tables. destruct cfg as [[] [] []]; vm_compute; reflexivity. Qed.

(** a header without payload *)
Lemma serialize_none {cfg : Cfg} hmac wrap kck kek h buffer temp :
  serialize_eapol hmac wrap kck kek (h, None) buffer temp = Err (if temp <? 24 then TemporaryBufferToShort else NoPayload).
Proof. unfold serialize_eapol. destruct (temp <? 24); reflexivity. Qed.

(** received frames that make the deserialiser panic *)
Definition short_frame : bytes := firstn 36 test_frame.
Lemma panic_short_witness {cfg : Cfg} : deserialize_eapol hmac_sha1_of aes_unwrap None None short_frame 100 Ak_Psk false = Panic.
Proof. destruct cfg as [[] [] []]; vm_compute; reflexivity. Qed.
Lemma panic_mic_witness {cfg : Cfg} : exists akm, key_mic_len akm = Some 24 /\
  deserialize_eapol hmac_sha1_of aes_unwrap (Some test_kck) None (raw_frame 0x0100 24 0 []) 100 akm false = Panic.
Proof. exists Ak_WpaSha384SuiteB. split; [reflexivity|]. tables. destruct cfg as [[] [] []]; vm_compute; reflexivity. Qed.
Lemma panic_data_witness {cfg : Cfg} : deserialize_eapol hmac_sha1_of aes_unwrap None None (raw_frame 0x1000 16 1 []) 100 Ak_Psk false = Panic.
Proof. destruct cfg as [[] [] []]; vm_compute; reflexivity. Qed.
Lemma panic_length_witness {cfg : Cfg} :
  deserialize_eapol hmac_sha1_of aes_unwrap None (Some test_kek) (raw_frame 0x1000 16 0 []) 100 Ak_Psk false = Panic.
Proof. destruct cfg as [[] [] []]; vm_compute; reflexivity. Qed.
Lemma panic_temp_witness {cfg : Cfg} : deserialize_eapol hmac_sha1_of aes_unwrap None (Some test_kek) (raw_frame 0x1000 16 120 (repeat 0%N 120)) 100 Ak_Psk false = Panic.
Proof. destruct cfg as [[] [] []]; vm_compute; reflexivity. Qed.
Lemma test_frame_ok : has_mic (key_information (test_key_frame test_mic test_data)) /\ wf_bytes test_frame /\ eapol_offset test_frame 32.
Proof.
  split; [reflexivity|]. split; [apply wf_bytesb_spec; vm_compute; reflexivity|].
  exists 24. split; [vm_compute; reflexivity|]. split; [reflexivity|]. split; [vm_compute; lia|vm_compute; reflexivity].
Qed.
Lemma forged {cfg : Cfg} : deserialize_eapol hmac_sha1_of aes_unwrap (Some test_kck) (Some test_kek) (overwrite test_frame 60 [0x55]%N) 100 Ak_Psk false = Err InvalidMic.
Proof. tables. destruct cfg as [[] [] []]; vm_compute; reflexivity. Qed.
Lemma test_hypotheses : let k := with_data (test_key_frame (repeat 0%N 16) []) (c_bytes test_data) in
  let sent := with_data k (sent_data aes_wrap test_kek (key_information k) test_data) in
  ok_data_header test_header /\ std_has_payload (subtype_number test_header) = true /\ wf_bytes test_data /\
  (forall cfg : Cfg, Writes (c_write (key_data k)) test_data) /\ ok_key_frame (with_data k test_data) /\ ok_key_frame sent /\
  key_mic k = repeat 0%N 16 /\ key_mic_len Ak_Psk = Some 16 /\ has_mic (key_information k) /\ has_encrypted_data (key_information k) /\
  length (key_data sent) <= 100.
Proof.
  intros k sent.
  assert (W : forall bs, wf_bytesb bs = true -> wf_bytes bs) by (intros bs; apply wf_bytesb_spec).
  assert (OK : forall mic data, wf_bytes mic -> wf_bytes data -> length mic = 16 -> length data <= 100 -> ok_key_frame (test_key_frame mic data)).
  { intros mic data Wm Wd Lm Ld. unfold ok_key_frame, test_key_frame. cbn [key_information key_length key_replay_counter key_nonce key_iv key_rsc key_mic key_data].
    repeat (split; [first [assumption|vm_compute; reflexivity|apply W; vm_compute; reflexivity]|]). lia. }
  assert (L : length (sent_data aes_wrap test_kek 0x13ca test_data) = 80).
  { change (sent_data aes_wrap test_kek 0x13ca test_data) with (aes_wrap test_kek test_data). rewrite known_wrap_eq. reflexivity. }
  split; [vm_compute; repeat split; try lia; try reflexivity; try (repeat constructor)|].
  split; [reflexivity|]. split; [apply W; vm_compute; reflexivity|]. split; [intros cfg; apply c_bytes_T|].
  split; [apply OK; [apply W; reflexivity|apply W; vm_compute; reflexivity|reflexivity|vm_compute; lia]|].
  split; [apply OK; [apply W; reflexivity|apply W; vm_compute; reflexivity|reflexivity|]|].
  { unfold sent, k. cbn [with_data key_information test_key_frame]. lia. }
  repeat (split; [reflexivity|]). unfold sent, k. cbn [with_data key_data key_information test_key_frame]. lia.
Qed.
