(** A link with protected data frames: an example cipher, and panics. *)
From Verif Require Import Base BaseFacts SpecBase Bits Enums Common SpecElementTypes Mgmt SpecMgmt MgmtFacts MgmtFacts5 CryptoHeader Data SpecData DataFacts DataFacts2 DataFacts3 DataFacts4
  SpecKeyMgmt SpecHandshake SpecReplay SpecLink LinkFacts.

Section Facts.
Context {cfg : Cfg}.
Hypothesis NL : native_le = true.
Lemma frame_unique (fcs : bool) h0 p0 h p : ok_data_header h0 -> wf_bytes p0 -> std_has_payload (subtype_number h0) = true ->
  data_frame_of fcs (enc_frame fcs (enc_data h0 p0)) h p -> h = h0 /\ p = p0.
Proof.
  intros OK W HP (b0 & OKh & T & SN & E).
  assert (P : frame_part fcs (enc_frame fcs (enc_data h0 p0)) = enc_data h0 p0).
  { unfold frame_part, enc_frame. destruct fcs; [|reflexivity]. apply firstn_app_exact. rewrite app_length, le_bytes_length. lia. }
  rewrite P in E. assert (Eb : (4 * 2 + 16 * subtype_number h0)%N = b0) by exact (f_equal (fun x => hd 0%N x) E). rewrite <- Eb in SN.
  assert (S0 : subtype_number h = subtype_number h0).
  { rewrite SN. pose proof OK as ([C _] & _). unfold subtype_number in *. set (s := data_subtype_into_bits (dh_subtype h0)) in *.
    transitivity (((8 + s * 16) / 16) mod 16)%N; [apply (f_equal (fun x => (x / 16) mod 16)%N); lia|]. rewrite N.div_add by discriminate. change (8 / 16)%N with 0%N. rewrite N.add_0_l. apply N.mod_small. lia. }
  assert (E2 : enc_data h p = enc_data h0 p0) by (rewrite E; unfold enc_data, enc_fcf; rewrite S0, <- Eb; reflexivity).
  assert (Wp : wf_bytes p).
  { pose proof (enc_data_wf h0 p0 OK W) as Q. rewrite <- E2 in Q. unfold enc_data in Q. rewrite !wf_bytes_app in Q. tauto. }
  pose proof (rd_data_enc h p false NL OKh Wp) as R1. pose proof (rd_data_enc h0 p0 false NL OK W) as R2. cbn [enc_frame] in R1, R2.
  rewrite E2, R2, S0, HP in R1. injection R1 as -> ->. auto.
Qed.
(** which frames are not foreign *)
Lemma not_foreign c aad mic (fcs : bool) sent h hdr text tag : ok_data_header h -> wf_bytes (hdr ++ text ++ tag) -> std_has_payload (subtype_number h) = true ->
  length hdr = 8 -> length tag = mic_size mic ->
  (forall key, match unseal c key (le_val (firstn 2 hdr ++ skipn 4 hdr)) (aad h) text tag with
     | Some plain => In (le_val (firstn 2 hdr ++ skipn 4 hdr), aad h, plain) sent | None => True end) ->
  ~ is_foreign c aad mic fcs sent (enc_frame fcs (enc_data h (hdr ++ text ++ tag))).
Proof.
  intros OK W HP L8 Lt U (h' & hdr' & text' & tag' & key & plain & DF & _ & L8' & _ & Lt' & V & NI).
  destruct (frame_unique fcs _ _ _ _ OK W HP DF) as [-> E].
  apply app_inj_len in E as [-> E]; [|congruence]. assert (Ll : length text' = length text) by (apply (f_equal (@length N)) in E; rewrite !app_length in E; lia).
  apply app_inj_len in E as [-> ->]; [|exact Ll]. specialize (U key). rewrite V in U. contradiction.
Qed.
Lemma complete_ok mic (fcs : bool) h hdr text tag : ok_data_header h -> wf_bytes (hdr ++ text ++ tag) -> std_has_payload (subtype_number h) = true ->
  length hdr = 8 -> N.testbit (nth 3 hdr 0%N) 5 = true -> length tag = mic_size mic -> end_ok text -> complete_frame mic fcs (enc_frame fcs (enc_data h (hdr ++ text ++ tag))).
Proof.
  intros OK W HP L8 X Lt EO. split.
  - intros ->. unfold enc_frame. rewrite app_length, le_bytes_length. lia.
  - intros h' p DF _ _. destruct (frame_unique fcs _ _ _ _ OK W HP DF) as [-> ->]. exists hdr, text, tag. split; [|exact EO]. split; [reflexivity|]. auto.
Qed.
End Facts.

(** a cipher that hides nothing; its MIC is a sum *)
Definition sum (l : bytes) : N := fold_right N.add 0%N l.
Definition toy_tag (mic : MicState) (key pn : N) (aad plain : bytes) : bytes := le_bytes (mic_size mic) (1 + key + pn + sum aad + sum plain).
Definition toy (mic : MicState) (only : N) : Cipher :=
  mkCipher (fun key pn aad plain => (plain, toy_tag mic key pn aad plain))
           (fun key pn aad text tag => if (key =? only)%N then if list_eq_dec N.eq_dec tag (toy_tag mic key pn aad text) then Some text else None else None).
Lemma toy_ok mic key : ok_cipher (toy mic key) mic key.
Proof.
  intros pn aad plain W. cbn [toy seal unseal]. split; [exact W|]. split; [reflexivity|]. split; [apply le_bytes_wf|]. split; [apply le_bytes_length|].
  rewrite N.eqb_refl. destruct (list_eq_dec N.eq_dec _ _); congruence.
Qed.
(** the authenticated data of the example: the addresses *)
Definition toy_aad (h : DataHeader) : bytes := dh_a1 h ++ dh_a2 h ++ dh_a3 h.
Definition toy_header (flags : N) : DataHeader := mkDH Dt_Data flags 0x2c2c (addr 1) (addr 2) (addr 3) 0x30 None None None.
Definition toy_message (pn : N) (plain : bytes) : Message := mkMessage (toy_header 1) pn plain.
(** the payload of a message *)
Definition toy_payload (mic : MicState) (pn : N) (plain : bytes) : bytes := enc_crypto pn 0 ++ plain ++ toy_tag mic 0 pn (toy_aad (toy_header 0x41)) plain.
Definition toy_frame (mic : MicState) (fcs : bool) (pn : N) (plain : bytes) : bytes := enc_frame fcs (enc_data (toy_header 0x41) (toy_payload mic pn plain)).

Section Toy.
Context {cfg : Cfg}.
Hypothesis NL : native_le = true.
Lemma toy_header_ok flags : (flags = 1 \/ flags = 0x41)%N -> ok_data_header (toy_header flags).
Proof. intros [->| ->]; (split; [split; reflexivity|]); repeat split; try reflexivity; repeat constructor. Qed.
Lemma toy_sent mic fcs pn plain buf : (pn < 2 ^ 48)%N -> wf_bytes plain -> wf_bytes buf -> message_size mic (toy_message pn plain) + slack <= length buf ->
  send_message (toy mic 0) toy_aad mic fcs 0 (toy_message pn plain) buf = Ok (toy_frame mic fcs pn plain).
Proof.
  intros PN W Wb L.
  pose proof (sent_frame (toy mic 0) toy_aad mic fcs 0 (toy_message pn plain) buf (toy_ok mic 0)) as S. cbn [toy seal] in S. apply S; clear S; auto; [|reflexivity].
  split; [apply toy_header_ok; now left|]. split; [reflexivity|]. split; [exact PN|exact W].
Qed.
(** A protected frame with a payload of three bytes makes the receiver panic; it is gone when the message comes. *)
Lemma link_panics : exists (rounds : Rounds) c aad mic, ok_cipher c mic 0 /\
  Forall (fun r => ok_message (fst r) /\ end_ok (m_plain (fst r)) /\ Forall wf_bytes (snd r) /\ is_heard c aad mic false 0 (fst r) (snd r)) rounds /\
  nothing_foreign c aad mic false [] rounds /\ rising (map (fun r => item aad (fst r)) rounds) /\
  link (open_frame c aad mic false) None (concat (map snd rounds)) = [] /\ length rounds = 1.
Proof.
  set (m := toy_message 1 [9; 8; 7]%N). set (short := enc_frame false (enc_data (toy_header 0x41) [1; 2; 3]%N)).
  set (f := toy_frame Mic_Short false 1 [9; 8; 7]%N).
  assert (Wf : wf_bytes f) by (apply wf_bytesb_spec; vm_compute; reflexivity).
  assert (Ws : wf_bytes short) by (apply wf_bytesb_spec; vm_compute; reflexivity).
  exists [(m, [short; f])], (toy Mic_Short 0), toy_aad, Mic_Short. split; [apply toy_ok|]. split; [|split; [|split; [|split; [|reflexivity]]]].
  - constructor; [|constructor]. cbn [fst snd]. split; [|split; [right; discriminate|split; [auto|]]].
    + split; [apply toy_header_ok; now left|]. split; [reflexivity|]. split; [reflexivity|]. apply wf_bytesb_spec. reflexivity.
    + exists (repeat 0%N 100), f. assert (W0 : wf_bytes (repeat 0%N 100)) by (apply wf_bytesb_spec; reflexivity).
      assert (L : message_size Mic_Short m + slack <= length (repeat 0%N 100)) by (unfold slack; destruct strict_end; vm_compute; lia).
      split; [exact W0|]. split; [exact L|]. split; [|right; now left].
      apply toy_sent; auto; [reflexivity|apply wf_bytesb_spec; reflexivity].
  - split; [|exact I]. apply Forall_cons; [|apply Forall_cons; [|apply Forall_nil]].
    + intros (h & hdr & text & tag & key & plain & DF & _ & L8 & _). apply (frame_unique NL) in DF as [_ E]; [|apply toy_header_ok; now right|apply wf_bytesb_spec; reflexivity|reflexivity].
      apply (f_equal (@length N)) in E. rewrite app_length, L8 in E. cbn in E. lia.
    + apply (not_foreign NL); [apply toy_header_ok; now right|apply wf_bytesb_spec; vm_compute; reflexivity|reflexivity|reflexivity|reflexivity|].
      intros key. cbn [toy unseal]. destruct (key =? 0)%N eqn:K; [|exact I]. apply N.eqb_eq in K. subst key. destruct (list_eq_dec N.eq_dec _ _) as [_|Z]; [left; vm_compute; reflexivity|exact I].
  - repeat constructor.
  - cbn [concat map snd app link]. replace (open_frame (toy Mic_Short 0) toy_aad Mic_Short false short) with (@Panic serr (option Item)); [reflexivity|].
    symmetry. clear - NL. destruct cfg as [[] n []]; cbn in NL; subst n; vm_compute; reflexivity.
Qed.
End Toy.
(** On big endian machines the sequence control is read with its bytes exchanged; its fragment number is authenticated, and nothing opens. *)
Definition fragment_aad (h : DataHeader) : bytes := [(dh_seq h mod 16)%N].
Definition fragment_message : Message := mkMessage (mkDH Dt_Data 1 0x2c2c (addr 1) (addr 2) (addr 3) 0x31 None None None) 1 [9; 8; 7]%N.
Lemma link_big_endian {cfg : Cfg} : native_le = false -> exists c aad m buf f, ok_cipher c Mic_Short 0 /\ ok_message m /\ wf_bytes buf /\ message_size Mic_Short m + slack <= length buf /\
  send_message c aad Mic_Short false 0 m buf = Ok f /\ open_frame c aad Mic_Short false f = Ok None.
Proof.
  intros NB. exists (toy Mic_Short 0), fragment_aad, fragment_message, (repeat 0%N 100).
  assert (O : ok_message fragment_message).
  { split; [split; [split; reflexivity|]; repeat split; try reflexivity; repeat constructor|]. split; [reflexivity|]. split; [reflexivity|]. apply wf_bytesb_spec. reflexivity. }
  assert (W0 : wf_bytes (repeat 0%N 100)) by (apply wf_bytesb_spec; reflexivity).
  assert (L : message_size Mic_Short fragment_message + slack <= length (repeat 0%N 100)) by (unfold slack; destruct strict_end; vm_compute; lia).
  pose proof (sent_frame (toy Mic_Short 0) fragment_aad Mic_Short false 0 fragment_message (repeat 0%N 100) (toy_ok _ 0) O eq_refl W0 L) as S. cbn [toy seal] in S.
  eexists. split; [apply toy_ok|]. split; [exact O|]. split; [exact W0|]. split; [exact L|].
  split; [exact S|]. clear S L. destruct cfg as [[] n []]; cbn in NB; subst n; vm_compute; reflexivity.
Qed.
