(** Data frames carrying A-MSDUs and examples against the claims. *)
From Verif Require Import Base BaseFacts Bits Layouts BitsFacts Enums EnumsFacts Common SpecBase SpecCommon CommonFacts Crc CrcFacts
  Elements ElementsFacts ElementTypes SpecElementTypes ElementTypesFacts StepsFacts Mgmt SpecMgmt MgmtFacts MgmtFacts2 MgmtFacts3 MgmtFacts5
  CryptoHeader Amsdu Data SpecData DataFacts DataFacts2 DataFacts3 DataFacts4.

(** a header without duration and sequence number *)
Definition dhdr (s : DataFrameSubtype) (flags : N) (a4 qos ht : option bytes) : DataHeader :=
  mkDH s flags 0 (addr 1) (addr 2) (addr 3) 0 a4 qos ht.
Definition sub_of (s : AMSDUSubframe bytes) : AMSDUSubframe Container := mkSub (sf_da s) (sf_sa s) (c_bytes (sf_payload s)).

Lemma amsdu_std h : ok_data_header h -> is_amsdu h = std_amsdu h.
Proof. intros H. now apply is_amsdu_std. Qed.

Section Facts.
Context {cfg : Cfg}.
Lemma sub_of_writes s : ok_sub s -> sub_writes (sub_of s) s.
Proof. intros OK. split; [exact OK|]. split; [reflexivity|]. split; [reflexivity|]. split; [apply c_bytes_T|reflexivity]. Qed.

(** writing an A-MSDU frame and iterating over what is read *)
Lemma amsdu_frame h ws l fcs : native_le = true -> ok_data_header h -> std_amsdu h = true -> Forall2 sub_writes ws l -> l <> [] ->
  N.testbit (dh_flags h) 6 = false ->
  Fills (wr_data (h, Some (c_amsdu ws)) fcs) (dh_length h + padded_length l + if fcs then 4 else 0)
        (fun frame => exists body, amsdu_bytes l body /\ pread (rd_data fcs) frame 0 = Ok (h, Some body) /\
           (forall mic, potentially_wrapped_payload (h, Some body) mic = Ok (Some (Unwrapped _ (Pl_AMSDU (Some body))))) /\
           amsdu_items body = Ok l).
Proof.
  intros NL OK AM F NE PR. eapply Fills_weaken; [|apply (data_fills h _ _ _ fcs OK (amsdu_fills ws l F))].
  cbv beta. intros bs (body & A & W & ->). exists body. split; [exact A|].
  assert (HP : std_has_payload (subtype_number h) = true).
  { unfold std_amsdu in AM. destruct (dh_qos h) as [[|q ?]|]; try discriminate. now apply andb_prop in AM as [_ AM]. }
  split; [|split].
  - rewrite (rd_data_enc h body fcs NL OK W), HP. reflexivity.
  - intros mic. rewrite payload_unprotected.
    + rewrite (amsdu_std h OK), AM. rewrite end_bad_lt; [reflexivity|]. destruct A as [|s l' pad rest OS]; [congruence|].
      rewrite app_length, enc_sub_length by exact OS. lia.
    + destruct (flag_bits (dh_flags h)) as (_ & _ & _ & E). rewrite E. exact PR.
  - rewrite <- (app_nil_r body). apply items_amsdu; auto; [constructor|cbn; lia].
Qed.
(** the same, encapsulated *)
Lemma amsdu_wrapped_frame h ws l pn key mic fcs : native_le = true -> ok_data_header h -> std_amsdu h = true ->
  Forall2 sub_writes ws l -> l <> [] -> ok_crypto pn key ->
  Fills (wr_data (wrapped_container (crypto_wrap (h, Some (c_amsdu ws)) (mkCH (le_bytes 6 pn) key) mic)) fcs)
        (dh_length h + (8 + padded_length l + mic_length mic) + if fcs then 4 else 0)
        (fun frame => exists d body, pread (rd_data fcs) frame 0 = Ok d /\ fst d = set_protected h /\
           potentially_wrapped_payload d (Some mic) =
             Ok (Some (CryptoWrapped _ (mkCW (mkCH (le_bytes 6 pn) 0) (Pl_AMSDU (Some body)) mic))) /\
           amsdu_items body = Ok l).
Proof.
  intros NL OK AM F NE OC. pose proof (set_protected_ok h OK) as OK'.
  eapply Fills_weaken; [|apply (data_fills (set_protected h) _ _ _ fcs OK' (c_crypto_fills_gen pn key _ _ _ mic OC (amsdu_fills ws l F)))].
  cbv beta. intros bs (x & (body & A & W & Lb & ->) & Wx & ->).
  assert (HP : std_has_payload (subtype_number h) = true).
  { unfold std_amsdu in AM. destruct (dh_qos h) as [[|q ?]|]; try discriminate. now apply andb_prop in AM as [_ AM]. }
  rewrite (rd_data_enc (set_protected h) _ fcs NL OK' Wx). change (subtype_number (set_protected h)) with (subtype_number h). rewrite HP.
  eexists. exists body. split; [reflexivity|]. split; [reflexivity|]. split.
  - destruct (enc_crypto_encapsulated pn key mic body (repeat 0%N (mic_length mic)) OC) as (E & E1 & E2); [apply repeat_length|].
    pose proof OK as (_ & F8 & _). destruct (protected_flags (dh_flags h) F8) as (_ & Pr & _).
    destruct (payload_protected (set_protected h) _ mic Pr Wx) as [Q _]. rewrite (Q _ _ _ E), E1, E2.
    + change (is_amsdu (set_protected h)) with (is_amsdu h). rewrite (amsdu_std h OK), AM. reflexivity.
    + right. destruct A as [|s l' pad rest OS]; [congruence|]. intros Z. apply (f_equal (@length _)) in Z.
      rewrite app_length, enc_sub_length in Z by exact OS. cbn in Z. lia.
  - rewrite <- (app_nil_r body). apply items_amsdu; auto; [constructor|cbn; lia].
Qed.

(** ** Counterexamples *)
Lemma data_big_endian : native_le = false -> exists h body frame h' p,
  ok_data_header h /\ payload_ok h (Some (c_bytes body)) body /\ Writes (wr_data (h, Some (c_bytes body)) false) frame /\
  pread (rd_data false) frame 0 = Ok (h', p) /\ dh_duration h' <> dh_duration h /\ dh_seq h' <> dh_seq h.
Proof.
  intros NE. set (h := mkDH Dt_Data 0 300 (addr 1) (addr 2) (addr 3) 16 None None None).
  assert (OK : ok_data_header h) by (repeat split; try reflexivity; repeat constructor).
  assert (P : payload_ok h (Some (c_bytes [1; 2]%N)) [1; 2]%N).
  { split; [reflexivity|]. split; [repeat constructor|]. apply c_bytes_T. }
  destruct (data_round_trip h _ _ false OK P) as (W & _ & _).
  exists h, [1; 2]%N. eexists. destruct cfg as [se nl oc]. cbn in NE. subst nl.
  destruct se, oc; (eexists; eexists; split; [exact OK|]; split; [exact P|]; split; [exact W|]; split; [reflexivity|]; split; discriminate).
Qed.
(** fourth address, QoS control and HT control must fit the flags and the subtype *)
Lemma data_optional_fields : native_le = true -> forall h,
  In h [dhdr Dt_QoSData 0 None None None; dhdr Dt_Data 3 None None None; dhdr Dt_Data 128 None None None;
        dhdr Dt_Data 0 (Some (addr 4)) None None; dhdr Dt_Data 0 None (Some [1; 0]%N) None; dhdr Dt_Data 0 None None (Some [1; 0; 0; 0]%N)] ->
  let body := [1; 2; 3; 4; 5; 6; 7; 8]%N in
  exists buf n h' p, wr_data (h, Some (c_bytes body)) false (repeat 0%N 64) = Ok (buf, n) /\
    pread (rd_data false) (firstn n buf) 0 = Ok (h', Some p) /\ p <> body.
Proof.
  intros NL h H. destruct cfg as [se nl oc]. cbn in NL. subst nl. cbn [In] in H.
  destruct se, oc; (repeat destruct H as [<-|H]); try contradiction;
  (do 4 eexists; split; [vm_compute; reflexivity|]; split; [vm_compute; reflexivity|]; vm_compute; discriminate).
Qed.
(** a payload with a subtype without payload *)
Lemma data_payload_dropped : native_le = true ->
  exists buf n h', wr_data (dhdr Dt_Null 0 None None None, Some (c_bytes [1; 2]%N)) false (repeat 0%N 64) = Ok (buf, n) /\
    pread (rd_data false) (firstn n buf) 0 = Ok (h', None).
Proof. intros NL. destruct cfg as [se nl oc]. cbn in NL. subst nl. destruct se, oc; (do 3 eexists; split; vm_compute; reflexivity). Qed.
(** a subtype [Unknown(n)] with [n > 15] *)
Lemma data_unknown_subtype : overflow_checks = true ->
  wr_data (dhdr (Dt_Unknown 16) 0 None None None, None) false (repeat 0%N 64) = Panic.
Proof. intros OC. destruct cfg as [se nl oc]. cbn in OC. subst oc. destruct se, nl; vm_compute; reflexivity. Qed.

(** bssid of an A-MSDU frame from the DS: read from one field, set in another *)
Lemma bssid_mut_amsdu : exists h h', ok_data_header h /\ std_amsdu h = true /\
  bssid_mut h (addr 9) = Some h' /\ bssid h' <> Some (addr 9) /\ bssid h' = bssid h.
Proof.
  exists (dhdr Dt_QoSData 2 None (Some [128; 0]%N) None). eexists.
  split; [repeat split; try reflexivity; repeat constructor|]. split; [reflexivity|]. split; [reflexivity|]. split; [discriminate|reflexivity].
Qed.
Lemma bssid_both : exists h, ok_data_header h /\ N.testbit (dh_flags h) 0 = true /\ N.testbit (dh_flags h) 1 = true /\ std_amsdu h = false /\
  role (std_bssid true true false) h = None /\ bssid h = Some (dh_a2 h).
Proof.
  exists (dhdr Dt_Data 3 (Some (addr 4)) None None).
  split; [repeat split; try reflexivity; repeat constructor|]. repeat split; reflexivity.
Qed.

Definition sub1 : AMSDUSubframe bytes := mkSub (addr 1) (addr 2) [7]%N.
Lemma sub1_ok : ok_sub sub1.
Proof. repeat split; try reflexivity; repeat constructor. Qed.
(** the announced length does not count the padding *)
Lemma amsdu_measure_short : exists ws l, Forall2 sub_writes ws l /\ c_measure (c_amsdu ws) < padded_length l /\
  exists buf n, c_write (c_amsdu ws) (repeat 0%N (c_measure (c_amsdu ws))) = Ok (buf, n) /\ length buf < n.
Proof.
  exists [sub_of sub1], [sub1]. split; [constructor; [apply sub_of_writes, sub1_ok|constructor]|]. split; [vm_compute; lia|].
  destruct cfg as [[] [] []]; (do 2 eexists; split; [vm_compute; reflexivity|vm_compute; lia]).
Qed.
(** a frame with such a payload: the FCS does not fit in the announced length, and a buffer that
    ends with the payload makes the writer panic *)
Lemma amsdu_frame_buffers : let d := (dhdr Dt_QoSData 0 None (Some [128; 0]%N) None, Some (c_amsdu [sub_of sub1])) in
  (exists e, wr_data d true (repeat 0%N (data_measure d true)) = Err e) /\ wr_data d true (repeat 0%N (data_measure d false)) = Panic.
Proof. destruct cfg as [[] [] []]; (split; [eexists; vm_compute; reflexivity|vm_compute; reflexivity]). Qed.
(** the length field of the standard is big endian *)
Lemma amsdu_standard : ok_sub sub1 /\ enc_sub sub1 <> enc_sub_std sub1 /\ amsdu_items (enc_sub_std sub1 ++ [0]%N) <> Ok [sub1] /\
  (exists l buf n, c_write (c_amsdu [sub_of sub1]) (repeat 0%N 20) = Ok (buf, n) /\ firstn 15 buf = l /\ l <> enc_sub_std sub1).
Proof.
  split; [apply sub1_ok|]. split; [discriminate|].
  destruct cfg as [[] [] []]; (split; [vm_compute; discriminate|do 3 eexists; split; [vm_compute; reflexivity|split; [reflexivity|vm_compute; discriminate]]]).
Qed.
(** a last subframe without padding, as the standard has it *)
Lemma amsdu_unpadded : amsdu_items (enc_sub sub1) = Panic.
Proof. destruct cfg as [[] [] []]; vm_compute; reflexivity. Qed.

Lemma ch_new_accepts : exists pn key h, (pn < 2 ^ 64 /\ key < 256)%N /\ ~ ok_crypto pn key /\ ch_new pn key = Some h /\ ch_packet_number h <> pn /\
  exists pn' key' h', (pn' < 2 ^ 64 /\ key' < 256)%N /\ ~ ok_crypto pn' key' /\ ch_new pn' key' = Some h' /\ ch_key_id h' = key' /\ (4 <= key')%N.
Proof.
  exists (2 ^ 48)%N, 0%N. eexists. split; [split; reflexivity|]. split; [intros [X _]; discriminate|]. split; [reflexivity|]. split; [vm_compute; discriminate|].
  exists 5%N, 77%N. eexists. split; [split; reflexivity|]. split; [intros [_ X]; discriminate|]. split; [reflexivity|]. split; [reflexivity|discriminate].
Qed.
(** the received key ID: bits 6 and 7 of the fourth byte; the reader shifts the wrong way *)
Lemma key_id_lost pn key : ok_crypto pn key -> (key <> 0)%N -> exists h h',
  ch_new pn key = Some h /\ WritesT (wr_crypto_header h) (enc_crypto pn key) /\
  rd_crypto_header (enc_crypto pn key) = Ok (h', 8) /\ ch_key_id h = key /\ ch_key_id h' = 0%N.
Proof.
  intros OK NZ. exists (mkCH (le_bytes 6 pn) key), (mkCH (le_bytes 6 pn) 0). split; [now apply ch_new_ok|].
  split; [now apply wr_crypto_header_T|]. pose proof (rd_crypto_header_enc pn key OK []) as R. rewrite app_nil_r in R. split; [exact R|]. split; reflexivity.
Qed.
Lemma crypto_round_trip pn key : ok_crypto pn key -> exists h,
  ch_new pn key = Some h /\ ch_packet_number h = pn /\ ch_key_id h = key /\
  WritesT (wr_crypto_header h) (enc_crypto pn key) /\
  exists h', Reads rd_crypto_header (enc_crypto pn key) h' /\ ch_packet_number h' = pn.
Proof.
  intros OK. exists (mkCH (le_bytes 6 pn) key). split; [now apply ch_new_ok|]. split; [apply ch_packet_number_of, OK|]. split; [reflexivity|].
  split; [now apply wr_crypto_header_T|]. exists (mkCH (le_bytes 6 pn) 0). split; [now apply rd_crypto_header_enc|]. apply ch_packet_number_of, OK.
Qed.
(** any eight bytes *)
Lemma crypto_received b0 b1 b2 b3 b4 b5 b6 b7 rest : wf_bytes [b0; b1; b2; b3; b4; b5; b6; b7] ->
  if N.testbit b3 5
  then exists h, rd_crypto_header ([b0; b1; b2; b3; b4; b5; b6; b7] ++ rest) = Ok (h, 8) /\
         ch_packet_number h = le_val [b0; b1; b4; b5; b6; b7] /\ ch_key_id h = (64 * (b3 mod 4))%N
  else rd_crypto_header ([b0; b1; b2; b3; b4; b5; b6; b7] ++ rest) = Err BadInput.
Proof.
  intros W. assert (H3 : (b3 < 256)%N). { do 3 apply wf_bytes_cons in W as [_ W]. now apply wf_bytes_cons in W as [W _]. }
  rewrite (rd_crypto_header_spec b0 b1 b2 b3 b4 b5 b6 b7 rest H3). destruct (N.testbit b3 5); [|reflexivity].
  eexists. split; [reflexivity|]. split; [unfold ch_packet_number; cbn [ch_pn]; apply (le_val_app_zeros _ 2)|].
  reflexivity.
Qed.
(** received frames on which unwrapping panics *)
Lemma unwrap_panics : exists h, ok_data_header h /\
  potentially_wrapped_payload (h, Some [1; 2; 3]%N) (Some Mic_Short) = Panic /\
  potentially_wrapped_payload (h, Some [1; 2; 0; 0; 3; 4; 5; 6; 9; 9; 9; 9; 9; 9; 9; 9; 9; 9]%N) (Some Mic_Short) = Panic /\
  potentially_wrapped_payload (h, Some [1; 2; 0; 32; 3; 4; 5; 6; 9; 9]%N) (Some Mic_Short) = Panic.
Proof.
  exists (dhdr Dt_Data 64 None None None). split; [repeat split; try reflexivity; repeat constructor|].
  destruct cfg as [[] [] []]; repeat split; vm_compute; reflexivity.
Qed.
End Facts.
Section More.
Context {cfg : Cfg}.
(** the payload accessor, for every frame *)
Lemma payload_accessor h p mic : wf_bytes p ->
  (N.testbit (dh_flags h) 6 = false -> potentially_wrapped_payload (h, Some p) mic =
     Ok (if strict_end && (length p =? 0) then None else Some (Unwrapped _ (if is_amsdu h then Pl_AMSDU (Some p) else Pl_Single p)))) /\
  (N.testbit (dh_flags h) 6 = true -> mic = None -> potentially_wrapped_payload (h, Some p) mic = Ok None) /\
  (N.testbit (dh_flags h) 6 = true -> forall m, mic = Some m ->
     (forall hdr body tag, encapsulated m p hdr body tag -> end_ok body ->
       exists ch, potentially_wrapped_payload (h, Some p) mic =
         Ok (Some (CryptoWrapped _ (mkCW ch (if is_amsdu h then Pl_AMSDU (Some body) else Pl_Single body) m))) /\
         ch_pn ch = firstn 2 hdr ++ skipn 4 hdr) /\
     ((forall hdr body tag, encapsulated m p hdr body tag -> ~ end_ok body) -> potentially_wrapped_payload (h, Some p) mic = Panic)).
Proof.
  intros W. destruct (flag_bits (dh_flags h)) as (_ & _ & _ & E). rewrite <- E. split; [|split].
  - intros P. rewrite (payload_unprotected h p mic P). unfold end_bad. destruct strict_end; [|reflexivity]. destruct p; reflexivity.
  - intros P ->. unfold potentially_wrapped_payload. cbn [fst snd]. now rewrite P.
  - intros P m ->. destruct (payload_protected h p m P W) as [A B]. split; [|exact B]. intros hdr body tag C EO.
    rewrite (A _ _ _ C EO). eexists. split; reflexivity.
Qed.
Lemma crypto_wrap_fills pn key p body mic : ok_crypto pn key -> wf_bytes body -> Writes (c_write p) body -> c_measure p = length body ->
  exists h, ch_new pn key = Some h /\
  Fills (c_write (c_crypto (mkCW h p mic))) (c_measure (c_crypto (mkCW h p mic)))
        (eq (enc_crypto pn key ++ body ++ repeat 0%N (mic_length mic))) /\
  c_measure (c_crypto (mkCW h p mic)) = 8 + length body + mic_length mic /\
  (forall buf, 8 + length body + slack <= length buf -> length buf < 8 + length body + mic_length mic ->
     c_write (c_crypto (mkCW h p mic)) buf = Panic).
Proof.
  intros OK Wb W M. exists (mkCH (le_bytes 6 pn) key). split; [now apply ch_new_ok|].
  assert (E : c_measure (c_crypto (mkCW (mkCH (le_bytes 6 pn) key) p mic)) = 8 + length body + mic_length mic).
  { cbn [c_measure c_crypto cw_payload cw_mic]. now rewrite M. }
  rewrite E. split; [now apply c_crypto_fills|]. split; [reflexivity|]. intros buf. now apply c_crypto_panics.
Qed.
Lemma unwrap_round_trip h p body pn key mic fcs : native_le = true -> ok_data_header h -> std_has_payload (subtype_number h) = true ->
  ok_crypto pn key -> wf_bytes body -> Writes (c_write p) body -> end_ok body ->
  exists ch, ch_new pn key = Some ch /\
  Fills (wr_data (wrapped_container (crypto_wrap (h, Some p) ch mic)) fcs)
        (dh_length h + (8 + length body + mic_length mic) + if fcs then 4 else 0)
        (fun frame => exists d w, pread (rd_data fcs) frame 0 = Ok d /\ fst d = set_protected h /\
             potentially_wrapped_payload d (Some mic) = Ok (Some (CryptoWrapped _ w)) /\
             ch_packet_number (cw_header w) = pn /\ cw_mic w = mic /\
             cw_payload w = (if std_amsdu h then Pl_AMSDU (Some body) else Pl_Single body)).
Proof.
  intros NL OK HP OC Wb W EO. exists (mkCH (le_bytes 6 pn) key). split; [now apply ch_new_ok|].
  eapply Fills_weaken; [|exact (wrapped_frame h p body pn key mic fcs NL OK HP OC Wb W EO)].
  cbv beta. intros fr (_ & d & A & B & C). exists d. eexists. split; [exact A|]. split; [exact B|]. split; [exact C|].
  cbn [cw_header cw_mic cw_payload]. rewrite (amsdu_std h OK). split; [apply ch_packet_number_of, OC|]. split; reflexivity.
Qed.
(** wrapping keeps everything else *)
Lemma set_protected_frame h : ok_data_header h ->
  let h' := set_protected h in
  ok_data_header h' /\ N.testbit (dh_flags h') 6 = true /\ (forall i, i <> 6%N -> N.testbit (dh_flags h') i = N.testbit (dh_flags h) i) /\
  dh_subtype h' = dh_subtype h /\ dh_duration h' = dh_duration h /\ dh_seq h' = dh_seq h /\
  (forall f, field f h' = field f h) /\ dh_qos h' = dh_qos h /\ dh_ht h' = dh_ht h.
Proof.
  intros OK h'. pose proof OK as (_ & F & _). destruct (protected_flags (dh_flags h) F) as (_ & P & T).
  split; [now apply set_protected_ok|]. split; [now rewrite <- (proj2 (proj2 (proj2 (flag_bits (dh_flags h')))))|]. split; [exact T|].
  do 3 (split; [reflexivity|]). split; [intros []; reflexivity|]. split; reflexivity.
Qed.
End More.
