(** Proofs about CCMP/GCMP encapsulation. *)
From Verif Require Import Base BaseFacts Bits Layouts BitsFacts Enums EnumsFacts Common SpecBase SpecCommon CommonFacts Crc CrcFacts
  Elements ElementsFacts ElementTypes SpecElementTypes ElementTypesFacts StepsFacts Mgmt SpecMgmt MgmtFacts
  CryptoHeader Amsdu Data SpecData DataFacts DataFacts2 DataFacts3.

Local Ltac lens := rewrite ?app_length, ?le_bytes_length, ?be_bytes_length, ?ne_bytes_length; cbn [length].

(** ** The header *)
Lemma ch_new_exact pn key : (pn < 2 ^ 64)%N -> (key < 256)%N ->
  (ch_new pn key = None <-> (2 ^ 48 <= pn /\ 4 <= key)%N).
Proof.
  intros Hp Hk. unfold ch_new, pn_and_key_id_valid, MAX_PN, MAX_KEY_ID.
  destruct (N.leb_spec pn (2 ^ 48 - 1)), (N.leb_spec key 3); cbn [orb]; split; try discriminate; try lia; reflexivity.
Qed.
Lemma ch_new_ok pn key : ok_crypto pn key -> ch_new pn key = Some (mkCH (le_bytes 6 pn) key).
Proof.
  intros [Hp Hk]. unfold ch_new, pn_and_key_id_valid, MAX_PN. rewrite (proj2 (N.leb_le pn _)) by lia. reflexivity.
Qed.
Lemma le_val_app_zeros bs k : le_val (bs ++ repeat 0%N k) = le_val bs.
Proof.
  induction bs as [|b bs IH]; cbn [app le_val].
  - induction k as [|k IH]; cbn [repeat le_val]; [reflexivity|]. rewrite IH. reflexivity.
  - now rewrite IH.
Qed.
Lemma ch_packet_number_of pn key : (pn < 2 ^ 48)%N -> ch_packet_number (mkCH (le_bytes 6 pn) key) = pn.
Proof.
  intros H. unfold ch_packet_number. cbn [ch_pn]. rewrite (le_val_app_zeros _ 2). apply le_val_bytes_small. exact H.
Qed.
Lemma shl6_write key : (key < 4)%N -> N.lor 32 (shl6_u8 key) = (32 + 64 * key)%N.
Proof.
  intros H. assert (C : In key (Nseq 4)) by now apply Nseq_in.
  revert C. revert key H. 
  assert (forallb (fun k => N.lor 32 (shl6_u8 k) =? 32 + 64 * k)%N (Nseq 4) = true) as F by reflexivity.
  intros key _ C. rewrite forallb_forall in F. now apply N.eqb_eq, F.
Qed.
Lemma shl6_exact x : (x < 256)%N -> shl6_u8 x = (64 * (x mod 4))%N.
Proof.
  intros H. assert (forallb (fun k => shl6_u8 k =? 64 * (k mod 4))%N (Nseq 256) = true) as F by (vm_compute; reflexivity).
  rewrite forallb_forall in F. now apply N.eqb_eq, F, Nseq_in.
Qed.
Lemma enc_crypto_length pn key : length (enc_crypto pn key) = 8.
Proof. reflexivity. Qed.
Lemma enc_crypto_wf pn key : (key < 4)%N -> wf_bytes (enc_crypto pn key).
Proof.
  intros H. unfold enc_crypto. rewrite !wf_bytes_app. split; [apply wf_firstn, le_bytes_wf|]. split; [|apply wf_skipn, le_bytes_wf].
  repeat constructor; lia.
Qed.

Section Facts.
Context {cfg : Cfg}.

Lemma wr_crypto_header_T pn key : ok_crypto pn key -> WritesT (wr_crypto_header (mkCH (le_bytes 6 pn) key)) (enc_crypto pn key).
Proof.
  intros [_ Hk]. unfold wr_crypto_header. cbn [ch_pn ch_key_id]. rewrite (shl6_write key Hk).
  change (enc_crypto pn key) with (concat [firstn 2 (le_bytes 6 pn); [0]; [32 + 64 * key]; skipn 2 (le_bytes 6 pn)])%N.
  apply wseq_allT; [|discriminate].
  constructor; [split; [apply wr_bytes_T|discriminate]|]. constructor; [split; [apply wr_bytes_T|discriminate]|].
  constructor; [split; [|discriminate]|constructor; [split; [apply wr_bytes_T|discriminate]|constructor]].
  rewrite <- le_bytes_1 by lia. apply wr_bytes_T.
Qed.
(** reading eight bytes *)
Lemma rd_crypto_header_spec b0 b1 b2 b3 b4 b5 b6 b7 rest : (b3 < 256)%N ->
  rd_crypto_header ([b0; b1; b2; b3; b4; b5; b6; b7] ++ rest) =
    if N.testbit b3 5 then Ok (mkCH [b0; b1; b4; b5; b6; b7] (64 * (b3 mod 4)), 8) else Err BadInput.
Proof.
  intros H. unfold rd_crypto_header.
  pose proof (At_start ([b0; b1; b2; b3; b4; b5; b6; b7] ++ rest)) as A.
  assert (L8 : length [b0; b1; b2; b3; b4; b5; b6; b7] = 8) by reflexivity.
  rewrite (gread_step _ _ _ _ _ _ A (rd_bytes_R [b0; b1; b2; b3; b4; b5; b6; b7] 8 L8)) by discriminate.
  cbn [rbind nth firstn skipn app length Nat.add]. rewrite (shl6_exact b3 H). destruct (N.testbit b3 5); reflexivity.
Qed.
Lemma rd_crypto_header_short from : length from < 8 -> exists e, rd_crypto_header from = Err e.
Proof.
  intros L. unfold rd_crypto_header. destruct (gread (rd_bytes 8) from 0) as [[h o]|e|] eqn:G; [exfalso| |exfalso]; cbn [rbind]; eauto.
  - pose proof (gread_bounds _ _ _ _ _ (rd_bytes_IB 8) G). apply (gread_size _ 8) in G; [lia|apply rd_bytes_size].
  - revert G. apply gread_no_panic, rd_bytes_NP.
Qed.
Lemma rd_crypto_header_NP : NoPanic rd_crypto_header.
Proof.
  intros from. unfold rd_crypto_header. destruct (gread (rd_bytes 8) from 0) as [[h o]|e|] eqn:G; cbn [rbind]; try discriminate.
  - destruct (negb _); discriminate.
  - intros _. revert G. apply gread_no_panic, rd_bytes_NP.
Qed.
Lemma rd_crypto_header_enc pn key : ok_crypto pn key -> Reads rd_crypto_header (enc_crypto pn key) (mkCH (le_bytes 6 pn) 0).
Proof.
  intros [Hp Hk] rest. unfold enc_crypto. cbn [firstn skipn le_bytes app].
  etransitivity; [refine (rd_crypto_header_spec _ _ _ _ _ _ _ _ rest _); lia|].
  replace (64 * ((32 + 64 * key) mod 4))%N with 0%N by lia.
  assert (E : N.testbit (32 + 64 * key) 5 = true).
  { assert (F : forallb (fun k => N.testbit (32 + 64 * k) 5) (Nseq 4) = true) by reflexivity.
    rewrite forallb_forall in F. now apply F, Nseq_in. }
  rewrite E. reflexivity.
Qed.

(** ** Wrapped payloads *)
Lemma c_crypto_fills_gen pn key p n P mic : ok_crypto pn key -> Fills (c_write p) n P ->
  Fills (c_write (c_crypto (mkCW (mkCH (le_bytes 6 pn) key) p mic))) (8 + n + mic_length mic)
        (fun bs => exists body, P body /\ wf_bytes body /\ length body = n /\ bs = enc_crypto pn key ++ body ++ repeat 0%N (mic_length mic)).
Proof.
  intros OK F buf Wf L. cbn [c_write c_crypto]. unfold wr_crypto_wrapped. cbn [cw_header cw_payload cw_mic].
  pose proof (gwrite_state_T _ _ [] buf (wr_crypto_header_T pn key OK)) as G1. cbn [app length skipn Nat.add] in G1.
  rewrite G1; [|discriminate|rewrite enc_crypto_length; lia]. clear G1. cbn [rbind].
  destruct (gwrite_fills _ _ _ F (enc_crypto pn key) (skipn 8 buf)) as (body & Lb & Wb & Pb & G2).
  { now apply wf_skipn. } { rewrite skipn_length. lia. }
  change (length (enc_crypto pn key)) with 8 in *. rewrite G2. cbn [rbind]. clear G2.
  exists (enc_crypto pn key ++ body ++ repeat 0%N (mic_length mic)).
  split; [rewrite !app_length, repeat_length, enc_crypto_length; lia|].
  split. { rewrite !wf_bytes_app. split; [apply enc_crypto_wf, OK|]. split; [exact Wb|]. apply Forall_forall. intros x Hx. apply repeat_spec in Hx. subst x. reflexivity. }
  split; [eauto|].
  set (q := enc_crypto pn key ++ body). assert (Lq : length q = 8 + n) by (unfold q; rewrite app_length, enc_crypto_length; lia).
  rewrite slice_from_ok by (rewrite app_length; lia). cbn [rbind]. rewrite skipn_app_exact by reflexivity.
  rewrite slice_to_ok by (rewrite !skipn_length; lia). cbn [rbind]. rewrite firstn_app_exact by reflexivity.
  rewrite !skipn_skipn_add, Lq. unfold q. rewrite <- !app_assoc. do 2 f_equal.
Qed.
Lemma c_crypto_fills pn key p body mic : ok_crypto pn key -> wf_bytes body -> Writes (c_write p) body ->
  Fills (c_write (c_crypto (mkCW (mkCH (le_bytes 6 pn) key) p mic))) (8 + length body + mic_length mic)
        (eq (enc_crypto pn key ++ body ++ repeat 0%N (mic_length mic))).
Proof.
  intros OK Wb W. eapply Fills_weaken; [|apply (c_crypto_fills_gen pn key p _ _ mic OK (Writes_fills _ _ Wb W))].
  cbv beta. now intros bs (b & <- & _ & _ & ->).
Qed.
(** the buffer holds header and payload, but not the MIC *)
Lemma c_crypto_panics pn key p body mic buf : ok_crypto pn key -> Writes (c_write p) body ->
  8 + length body + slack <= length buf -> length buf < 8 + length body + mic_length mic ->
  c_write (c_crypto (mkCW (mkCH (le_bytes 6 pn) key) p mic)) buf = Panic.
Proof.
  intros OK W L1 L2. cbn [c_write c_crypto]. unfold wr_crypto_wrapped. cbn [cw_header cw_payload cw_mic].
  pose proof (gwrite_state_T _ _ [] buf (wr_crypto_header_T pn key OK)) as G1. cbn [app length skipn Nat.add] in G1.
  rewrite G1; [|discriminate|rewrite enc_crypto_length; lia]. clear G1. cbn [rbind]. change (length (enc_crypto pn key)) with 8.
  pose proof (gwrite_state_ok (c_write p) body (enc_crypto pn key) buf W) as G2. change (length (enc_crypto pn key)) with 8 in G2.
  rewrite G2 by (try rewrite app_length; change (length (enc_crypto pn key)) with 8; lia). clear G2. cbn [rbind].
  set (q := enc_crypto pn key ++ body). assert (Lq : length q = 8 + length body) by (unfold q; rewrite app_length, enc_crypto_length; lia).
  rewrite slice_from_ok by (rewrite app_length; lia). cbn [rbind]. rewrite skipn_app_exact by reflexivity.
  unfold slice_to. rewrite skipn_length. rewrite (proj2 (Nat.leb_gt _ _)) by lia. reflexivity.
Qed.

(** ** Unwrapping *)
Lemma eight (hdr : bytes) : length hdr = 8 -> exists b0 b1 b2 b3 b4 b5 b6 b7, hdr = [b0; b1; b2; b3; b4; b5; b6; b7].
Proof. intros L. do 8 (destruct hdr as [|? hdr]; [discriminate|]). destruct hdr; [|discriminate]. eauto 12. Qed.
Lemma rd_header_cases from : wf_bytes from ->
  (length from < 8 /\ exists e, rd_crypto_header from = Err e) \/
  (exists hdr rest, from = hdr ++ rest /\ length hdr = 8 /\
    if N.testbit (nth 3 hdr 0%N) 5
    then rd_crypto_header from = Ok (mkCH (firstn 2 hdr ++ skipn 4 hdr) (64 * (nth 3 hdr 0 mod 4))%N, 8)
    else rd_crypto_header from = Err BadInput).
Proof.
  intros W. destruct (le_lt_dec 8 (length from)) as [L|L]; [right|left; split; [exact L|now apply rd_crypto_header_short]].
  exists (firstn 8 from), (skipn 8 from). split; [now rewrite firstn_skipn|]. split; [rewrite firstn_length; lia|].
  destruct (eight (firstn 8 from)) as (b0 & b1 & b2 & b3 & b4 & b5 & b6 & b7 & E); [rewrite firstn_length; lia|].
  pose proof (wf_firstn 8 from W) as W8. rewrite E in *.
  assert (H3 : (b3 < 256)%N). { do 3 apply wf_bytes_cons in W8 as [_ W8]. now apply wf_bytes_cons in W8 as [W8 _]. }
  assert (Ef : from = [b0; b1; b2; b3; b4; b5; b6; b7] ++ skipn 8 from) by (rewrite <- E; now rewrite firstn_skipn).
  rewrite Ef, (rd_crypto_header_spec b0 b1 b2 b3 b4 b5 b6 b7 _ H3). cbn [nth firstn skipn app]. destruct (N.testbit b3 5); reflexivity.
Qed.
(** the outcome of reading a wrapped payload, for every byte string *)
Lemma rd_wrapped_ok mic amsdu from hdr body tag : wf_bytes from -> encapsulated mic from hdr body tag -> end_ok body ->
  rd_wrapped mic (rd_payload amsdu) from =
    Ok (mkCW (mkCH (firstn 2 hdr ++ skipn 4 hdr) (64 * (nth 3 hdr 0 mod 4))%N)
             (if amsdu then Pl_AMSDU (Some body) else Pl_Single body) mic, length from).
Proof.
  intros W (E & L8 & X & Lt) EO. change (length tag = mic_length mic) in Lt. unfold rd_wrapped.
  assert (Lf : length from = 8 + length body + mic_length mic) by (rewrite E, !app_length; lia).
  destruct (rd_header_cases from W) as [[L _]|(h & r & E' & Lh & R)]; [lia|].
  rewrite E in E'. apply app_inj_len in E' as [<- <-]; [|lia]. rewrite X in R.
  unfold gread. rewrite end_bad_lt by lia. cbn [skipn]. rewrite R. cbn [rbind Nat.add].
  rewrite slice_from_ok by lia. cbn [rbind]. unfold usub. rewrite (proj2 (Nat.leb_le 8 _)) by lia. cbn [rbind].
  rewrite (proj2 (Nat.leb_le (mic_length mic) _)) by lia. cbn [rbind].
  rewrite slice_to_ok by (rewrite skipn_length; lia). cbn [rbind].
  replace (firstn (length from - 8 - mic_length mic) (skipn 8 from)) with body.
  2:{ rewrite E, skipn_app_exact by auto. rewrite firstn_app_exact; [reflexivity|]. rewrite <- E. lia. }
  unfold pread, gread. assert (EB : end_bad 0 (length body) = false).
  { unfold end_bad. destruct EO as [->|N]; [reflexivity|]. destruct strict_end; [|reflexivity]. apply Nat.leb_gt. destruct body; [congruence|cbn; lia]. }
  rewrite EB.
  cbn [skipn rbind rd_payload]. reflexivity.
Qed.
Lemma rd_wrapped_inv mic amsdu from w n : wf_bytes from -> rd_wrapped mic (rd_payload amsdu) from = Ok (w, n) ->
  exists hdr body tag, encapsulated mic from hdr body tag /\ end_ok body.
Proof.
  intros W. unfold rd_wrapped. destruct (gread rd_crypto_header from 0) as [[h o]| |] eqn:G; cbn [rbind]; try discriminate.
  apply gread_inv in G as (_ & k & R & ->). cbn [skipn Nat.add] in *.
  destruct (rd_header_cases from W) as [[_ (e & E)]|(hdr & r & E & Lh & C)]; [congruence|].
  destruct (N.testbit (nth 3 hdr 0%N) 5) eqn:X; [|congruence].
  assert (k = 8) as -> by congruence.
  assert (Lf : length from = 8 + length r) by (rewrite E, app_length; lia).
  rewrite slice_from_ok by lia. cbn [rbind]. unfold usub. rewrite (proj2 (Nat.leb_le 8 _)) by lia. cbn [rbind].
  destruct (Nat.leb_spec (mic_length mic) (length from - 8)) as [M|M]; cbn [rbind]; [|discriminate].
  rewrite slice_to_ok by (rewrite skipn_length; lia). cbn [rbind]. intros P.
  assert (Es : skipn 8 from = r) by (rewrite E; now apply skipn_app_exact). rewrite Es in P.
  set (k := length from - 8 - mic_length mic) in *.
  exists hdr, (firstn k r), (skipn k r). split.
  - split; [rewrite firstn_skipn; exact E|]. split; [exact Lh|]. split; [exact X|]. change (length (skipn k r) = mic_length mic). rewrite skipn_length. lia.
  - unfold end_ok. destruct strict_end eqn:St; [right|left; reflexivity]. intros Z. rewrite Z in P. unfold pread, gread, end_bad in P.
    rewrite St in P. discriminate.
Qed.
Lemma rd_wrapped_panic mic amsdu from hdr rest : wf_bytes from -> from = hdr ++ rest -> length hdr = 8 ->
  N.testbit (nth 3 hdr 0%N) 5 = true -> length rest < mic_length mic -> rd_wrapped mic (rd_payload amsdu) from = Panic.
Proof.
  intros W E L8 X Lr. unfold rd_wrapped.
  assert (Lf : length from = 8 + length rest) by (rewrite E, app_length; lia).
  destruct (rd_header_cases from W) as [[L _]|(h & r & E' & Lh & R)]; [lia|].
  rewrite E in E'. apply app_inj_len in E' as [<- <-]; [|lia]. rewrite X in R.
  unfold gread. rewrite end_bad_lt by lia. cbn [skipn]. rewrite R. cbn [rbind Nat.add].
  rewrite slice_from_ok by lia. cbn [rbind]. unfold usub. rewrite (proj2 (Nat.leb_le 8 _)) by lia. cbn [rbind].
  rewrite (proj2 (Nat.leb_gt (mic_length mic) _)) by lia. reflexivity.
Qed.
(** [potentially_wrapped_payload] *)
Lemma payload_unprotected h p mic : protected (dh_flags h) = false ->
  potentially_wrapped_payload (h, Some p) mic =
    Ok (if end_bad 0 (length p) then None else Some (Unwrapped _ (if is_amsdu h then Pl_AMSDU (Some p) else Pl_Single p))).
Proof. intros P. unfold potentially_wrapped_payload. cbn [fst snd]. rewrite P. unfold pread, gread. destruct (end_bad 0 (length p)); reflexivity. Qed.
Lemma payload_protected h p mic : protected (dh_flags h) = true -> wf_bytes p ->
  (forall hdr body tag, encapsulated mic p hdr body tag -> end_ok body ->
     potentially_wrapped_payload (h, Some p) (Some mic) =
       Ok (Some (CryptoWrapped _ (mkCW (mkCH (firstn 2 hdr ++ skipn 4 hdr) (64 * (nth 3 hdr 0 mod 4))%N)
                                   (if is_amsdu h then Pl_AMSDU (Some body) else Pl_Single body) mic)))) /\
  ((forall hdr body tag, encapsulated mic p hdr body tag -> ~ end_ok body) ->
     potentially_wrapped_payload (h, Some p) (Some mic) = Panic).
Proof.
  intros P W. unfold potentially_wrapped_payload. cbn [fst snd]. rewrite P. split.
  - intros hdr body tag E EO. unfold pread, gread. rewrite end_bad_lt.
    2:{ destruct E as (-> & L8 & _). rewrite app_length. lia. }
    cbn [skipn]. rewrite (rd_wrapped_ok mic (is_amsdu h) p hdr body tag W E EO). reflexivity.
  - intros N. unfold pread, gread. destruct (end_bad 0 (length p)); [reflexivity|]. cbn [skipn].
    destruct (rd_wrapped mic (rd_payload (is_amsdu h)) p) as [[w n]| |] eqn:R; [exfalso|reflexivity|reflexivity].
    apply rd_wrapped_inv in R as (hdr & body & tag & E & EO); [|exact W]. exact (N _ _ _ E EO).
Qed.

(** ** A whole frame *)
Lemma protected_flags f : (f < 256)%N -> let f' := lsetb FCFFlags_layout "protected" true f in
  (f' < 256)%N /\ protected f' = true /\ (forall i, i <> 6%N -> N.testbit f' i = N.testbit f i).
Proof.
  intros H f'. assert (E : f' = N.lor f 64).
  { assert (F : forallb (fun f => lsetb FCFFlags_layout "protected" true f =? N.lor f 64)%N (Nseq 256) = true) by (vm_compute; reflexivity).
    rewrite forallb_forall in F. now apply N.eqb_eq, F, Nseq_in. }
  assert (B : (f' < 256)%N /\ protected f' = true).
  { assert (F : forallb (fun f => let f' := lsetb FCFFlags_layout "protected" true f in (f' <? 256)%N && protected f') (Nseq 256) = true) by (vm_compute; reflexivity).
    rewrite forallb_forall in F. pose proof (F f (Nseq_in 256 f H)) as Q. cbv beta zeta in Q. apply andb_prop in Q as [Q1 Q2]. apply N.ltb_lt in Q1. auto. }
  destruct B as [B1 B2]. split; [exact B1|]. split; [exact B2|]. intros i Hi. rewrite E, N.lor_spec.
  replace (N.testbit 64 i) with false; [apply orb_false_r|]. symmetry. change 64%N with (2 ^ 6)%N. apply N.pow2_bits_false. congruence.
Qed.
Lemma set_protected_ok h : ok_data_header h -> ok_data_header (set_protected h).
Proof.
  intros (C & F & D & X1 & X2 & X3 & S & O4 & OQ & OH). destruct (protected_flags (dh_flags h) F) as (B & _ & T).
  unfold ok_data_header, subtype_number. cbn [set_protected dh_subtype dh_flags dh_duration dh_a1 dh_a2 dh_a3 dh_seq dh_a4 dh_qos dh_ht].
  rewrite !T by discriminate. do 9 (split; [assumption|]). assumption.
Qed.
Lemma Pl_writes p body : p = Pl_Single body \/ p = Pl_AMSDU (Some body) -> Writes (c_write (c_payload p)) body.
Proof. intros [-> | ->]; cbn [c_write c_payload]; apply pwrite0_W, wr_bytes_W. Qed.

Lemma enc_crypto_encapsulated pn key mic body tag : ok_crypto pn key -> length tag = mic_length mic ->
  encapsulated mic (enc_crypto pn key ++ body ++ tag) (enc_crypto pn key) body tag /\
  firstn 2 (enc_crypto pn key) ++ skipn 4 (enc_crypto pn key) = le_bytes 6 pn /\
  (64 * (nth 3 (enc_crypto pn key) 0 mod 4) = 0)%N.
Proof.
  intros [Hp Hk] Lt. split; [split; [reflexivity|]; split; [reflexivity|]; split; [|exact Lt]|split; [reflexivity|]].
  - cbn [enc_crypto firstn skipn le_bytes app nth].
    assert (F : forallb (fun k => N.testbit (32 + 64 * k) 5) (Nseq 4) = true) by reflexivity.
    rewrite forallb_forall in F. now apply F, Nseq_in.
  - cbn [enc_crypto firstn skipn le_bytes app nth]. lia.
Qed.
Lemma wrapped_frame h p body pn key mic fcs : native_le = true -> ok_data_header h -> std_has_payload (subtype_number h) = true ->
  ok_crypto pn key -> wf_bytes body -> Writes (c_write p) body -> end_ok body ->
  Fills (wr_data (wrapped_container (crypto_wrap (h, Some p) (mkCH (le_bytes 6 pn) key) mic)) fcs)
        (dh_length h + (8 + length body + mic_length mic) + if fcs then 4 else 0)
        (fun frame => frame = enc_frame fcs (enc_data (set_protected h) (enc_crypto pn key ++ body ++ repeat 0%N (mic_length mic))) /\
           exists d, pread (rd_data fcs) frame 0 = Ok d /\ fst d = set_protected h /\
             potentially_wrapped_payload d (Some mic) =
               Ok (Some (CryptoWrapped _ (mkCW (mkCH (le_bytes 6 pn) 0) (if is_amsdu h then Pl_AMSDU (Some body) else Pl_Single body) mic)))).
Proof.
  intros NL OK HP OC Wb W EO. pose proof (set_protected_ok h OK) as OK'.
  pose proof (data_fills (set_protected h) _ _ _ fcs OK' (c_crypto_fills pn key p body mic OC Wb W)) as F.
  eapply Fills_weaken; [|exact F]. intros bs (x & <- & Wx & ->). split; [reflexivity|].
  rewrite (rd_data_enc (set_protected h) _ fcs NL OK' Wx). change (subtype_number (set_protected h)) with (subtype_number h). rewrite HP.
  eexists. split; [reflexivity|]. split; [reflexivity|].
  destruct (enc_crypto_encapsulated pn key mic body (repeat 0%N (mic_length mic)) OC) as (E & E1 & E2); [apply repeat_length|].
  pose proof OK as (_ & F8 & _). destruct (protected_flags (dh_flags h) F8) as (_ & Pr & _).
  destruct (payload_protected (set_protected h) _ mic Pr Wx) as [Q _]. rewrite (Q _ _ _ E EO), E1, E2. reflexivity.
Qed.
End Facts.
