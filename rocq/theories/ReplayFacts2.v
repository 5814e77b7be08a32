(** Proofs: what is sent with [serialize_eapol_data_frame] for the receiver of SpecReplay.v, and concrete histories. *)
From Verif Require Import Base SpecBase BaseFacts Suites Enums Rsn Mgmt SpecMgmt MgmtFacts2 SpecElementTypes Data SpecData Eapol SpecEapol EapolFacts KeyMgmt SpecKeyMgmt KeyMgmtFacts KeyMgmtFacts2 KeyMgmtFacts4
  KeyMgmtFacts5 KeyMgmtFacts6 KeyMgmtFacts7 HandshakeFacts SpecHandshake SpecArrival ArrivalFacts Sha1 Aes AesFacts ReceiveFacts SpecReplay ReplayFacts.

Section F.
Context {cfg : Cfg} (hmac : bytes -> bytes -> bytes) (wrap : bytes -> bytes -> bytes) (unwrap : bytes -> bytes -> option bytes)
  (HM : hmac_sha1 hmac) (KW : key_wrap wrap unwrap).
Theorem sent_on_air kck kek h oui (k : KeyFrame Container) kd buffer temp buf' n :
  ok_data_header h -> length oui = 3 -> wf_bytes oui -> Writes (c_write (key_data k)) kd -> wf_bytes kd ->
  let sent := with_data k (sent_data wrap kek (key_information k) kd) in
  ok_key_frame (with_data k kd) -> ok_key_frame sent -> key_mic k = repeat 0%N 16 -> N.testbit (key_information k) 8 = true ->
  length (enc_eapol h oui 0x888e (with_data k kd)) + slack <= length buffer ->
  serialize_eapol hmac wrap (Some kck) (Some kek) (h, Some (mkSnap oui 0x888e k)) buffer temp = Ok (buf', n) ->
  firstn n buf' = enc_eapol h oui 0x888e (on_air hmac kck sent) /\ ok_sent sent /\
  forall k', delivers hmac unwrap kck (Some kek) sent k' -> same_fields k k' /\ key_data k' = received_data (key_information k) kd.
Proof.
  intros H LO WO WR WK sent OKD OK KM B8 LB S.
  rewrite (serialize_outcome hmac wrap unwrap HM KW (Some kck) (Some kek) h oui 0x888e k kd buffer temp H LO WO WR OKD LB) in S. cbv zeta in S. cbn [the_key] in S. fold sent in S.
  assert (EM : sent_mic hmac kck sent = frame_mic hmac kck sent).
  { unfold sent_mic, frame_mic. change (key_information sent) with (key_information k). rewrite B8. rewrite <- KM. reflexivity. }
  rewrite EM in S. fold (on_air hmac kck sent) in S.
  destruct (send_outcome _ _ _ _ _ _ _ _) as [[]|er|] eqn:SO; try discriminate. split.
  { assert (E1 := f_equal (fun r => match r with Ok v => fst v | _ => buf' end) S); assert (E2 := f_equal (fun r => match r with Ok v => snd v | _ => n end) S); cbv beta iota in E1, E2; cbn [fst snd] in E1, E2; rewrite <- E1, <- E2; now apply firstn_app_exact. }
  split; [split; [exact OK|]; unfold sent; cbn [with_data key_mic]; now rewrite KM|].
  intros k' [SF [_ D]]. split; [exact SF|]. change (key_information sent) with (key_information k) in D.
  unfold received_data. unfold sent, sent_data in D. cbn [with_data key_data] in D. destruct (N.testbit (key_information k) 12); [|exact D].
  destruct D as (key & K & U). injection K as <-. destruct kd as [|b kd].
  - apply (kw_unwrap_length _ _ KW) in U. cbn in U. lia.
  - destruct (pad_length (b :: kd)) as (_ & P1 & P2). rewrite (kw_inverse _ _ KW) in U; [congruence|exact P1|exact P2|now apply pad_key_data_wf].
Qed.
End F.

(** ** Concrete histories *)
Definition forgedb (hmac : bytes -> bytes -> bytes) (kck : bytes) (with_fcs : bool) (sent : list (KeyFrame bytes)) (b : bytes) : bool :=
  let f := frame_part with_fcs b in
  let eqb x y := if list_eq_dec N.eq_dec x y then true else false in
  match header_size f with
  | None => false
  | Some s =>
    let e := s + 8 in let x := between_bytes f e (e + 81) ++ repeat 0%N 16 ++ skipn (e + 81 + 16) f in
    (e + 81 + 16 <=? length f) && eqb (between_bytes f (e + 81) (e + 81 + 16)) (firstn 16 (hmac kck x)) && negb (existsb (eqb x) (map mic_input sent))
  end.
Lemma forgedb_false hmac kck with_fcs sent b : forgedb hmac kck with_fcs sent b = false -> ~ is_forged hmac kck with_fcs sent b.
Proof.
  unfold forgedb, is_forged. intros F (e & (s & HS & -> & _) & (L & M) & N). rewrite HS in F. rewrite <- M in F.
  destruct (Nat.leb_spec (s + 8 + 81 + 16) (length (frame_part with_fcs b))) as [_|X]; [|lia].
  destruct (list_eq_dec N.eq_dec (between_bytes (frame_part with_fcs b) (s + 8 + 81) (s + 8 + 81 + 16)) (between_bytes (frame_part with_fcs b) (s + 8 + 81) (s + 8 + 81 + 16))) as [_|X]; [|congruence].
  cbn [andb] in F. apply Bool.negb_false_iff in F. apply existsb_exists in F as (y & J & E). destruct (list_eq_dec _ _ _) as [<-|]; [|discriminate]. now apply N.
Qed.
Fixpoint nothing_forgedb hmac kck with_fcs past (rounds : History) : bool :=
  match rounds with
  | [] => true
  | (s, air) :: rest => forallb (fun b => negb (forgedb hmac kck with_fcs (past ++ [s]) b)) air && nothing_forgedb hmac kck with_fcs (past ++ [s]) rest
  end.
Lemma nothing_forgedb_true hmac kck with_fcs past rounds : nothing_forgedb hmac kck with_fcs past rounds = true -> nothing_forged hmac kck with_fcs past rounds.
Proof.
  revert past. induction rounds as [|[s air] rounds IH]; intros past; cbn [nothing_forgedb nothing_forged]; [easy|].
  intros E. apply andb_prop in E as [E1 E2]. split; [|now apply IH]. rewrite forallb_forall in E1. apply Forall_forall. intros b J.
  apply forgedb_false. apply Bool.negb_true_iff. now apply E1.
Qed.

(** a frame with plain key data, one with an encrypted (short) group key, and one of the station itself *)
Definition first_sent : KeyFrame bytes := mkKF 0x0382 16 1 (repeat 7%N 32) 0 0 (repeat 0%N 16) [48; 2; 1; 0]%N.
Definition second_data : bytes := [221; 11; 0; 15; 172; 1; 1; 0; 9; 9; 9; 9; 9]%N.
(** wrapped (lemma [second_wrapped_eq]) *)
Definition second_wrapped : bytes := Eval vm_compute in aes_wrap test_kek (pad_key_data second_data).
Lemma second_wrapped_eq : aes_wrap test_kek (pad_key_data second_data) = second_wrapped.
Proof. vm_compute. reflexivity. Qed.
Definition second_sent : KeyFrame bytes := mkKF 0x1382 0 2 (repeat 0%N 32) 0 0 (repeat 0%N 16) second_wrapped.
Definition own_sent : KeyFrame bytes := mkKF 0x030a 0 3 (repeat 0%N 32) 0 0 (repeat 0%N 16) [].
Definition sent_frame (s : KeyFrame bytes) : bytes := enc_eapol test_header [0; 0; 0]%N 0x888e (on_air hmac_sha1_of test_kck s).
Definition from_authenticator (info : N) : bool := N.testbit info 7.
(** as bytes (lemma [frames_eq]) *)
Definition first_frame : bytes := Eval vm_compute in sent_frame first_sent.
Definition own_frame : bytes := Eval vm_compute in sent_frame own_sent.
Definition second_frame : bytes := Eval vm_compute in sent_frame second_sent.
Definition test_history : History :=
  [(first_sent, [[1; 2; 3]%N; overwrite first_frame 60 [0x55]%N; first_frame]);
   (own_sent, [own_frame; first_frame]);
   (second_sent, [second_frame; first_frame; second_frame])].
(** the hashes and the unwrapping, computed once *)
Definition first_hash : bytes := Eval vm_compute in hmac_sha1_of test_kck (enc_key_frame first_sent).
Definition own_hash : bytes := Eval vm_compute in hmac_sha1_of test_kck (enc_key_frame own_sent).
Definition second_hash : bytes := Eval vm_compute in hmac_sha1_of test_kck (enc_key_frame second_sent).
Definition changed_input : bytes := Eval vm_compute in overwrite (enc_key_frame first_sent) 28 [0x55]%N.
Definition changed_hash : bytes := Eval vm_compute in hmac_sha1_of test_kck changed_input.
Definition plain_input : bytes := Eval vm_compute in
  let b := overwrite (raw_frame 0x0080 16 3 [1; 2; 3]%N) 35 [98]%N in between_bytes b 32 113 ++ repeat 0%N 16 ++ skipn 129 b.
Definition plain_hash : bytes := Eval vm_compute in hmac_sha1_of test_kck plain_input.
Definition history_hmac : bytes -> bytes -> bytes := from_table
  [(test_kck, enc_key_frame first_sent, first_hash); (test_kck, enc_key_frame own_sent, own_hash); (test_kck, enc_key_frame second_sent, second_hash);
   (test_kck, changed_input, changed_hash); (test_kck, plain_input, plain_hash)] hmac_sha1_of.
Definition history_unwrap : bytes -> bytes -> option bytes := from_table [(test_kek, second_wrapped, Some (pad_key_data second_data))] aes_unwrap.
Lemma history_hmac_eq k m : hmac_sha1_of k m = history_hmac k m.
Proof. apply from_table_eq. do 5 (apply Forall_cons; [vm_compute; reflexivity|]). apply Forall_nil. Qed.
Lemma history_unwrap_eq k m : aes_unwrap k m = history_unwrap k m.
Proof.
  apply from_table_eq. apply Forall_cons; [|apply Forall_nil]. cbn [fst snd]. rewrite <- second_wrapped_eq.
  apply (kw_inverse _ _ aes_key_wrap); [apply Nat.leb_le; reflexivity|reflexivity|apply wf_bytesb_spec; reflexivity].
Qed.
Lemma frames_eq : sent_frame first_sent = first_frame /\ sent_frame own_sent = own_frame /\ sent_frame second_sent = second_frame.
Proof. unfold sent_frame, on_air, frame_mic. rewrite !history_hmac_eq. split; [|split]; vm_compute; reflexivity. Qed.
Lemma receive_ext strict hmac hmac' unwrap unwrap' kck kek b temp akm : (forall k m, hmac k m = hmac' k m) -> (forall k m, unwrap k m = unwrap' k m) ->
  receive_outcome strict hmac unwrap kck kek b temp akm = receive_outcome strict hmac' unwrap' kck kek b temp akm.
Proof.
  intros H U. unfold receive_outcome, packet_outcome. destruct (header_size b); [|reflexivity]. destruct (_ <? _); [reflexivity|].
  destruct (list_eq_dec _ _ _); [|reflexivity]. do 2 (destruct (_ <? _); [reflexivity|]). destruct (key_mic_len akm); [|reflexivity].
  destruct kck, kek; now rewrite ?H, ?U.
Qed.
Lemma arrival_ext hmac hmac' unwrap unwrap' kck kek temp k : (forall k m, hmac k m = hmac' k m) -> (forall k m, unwrap k m = unwrap' k m) ->
  arrival hmac unwrap kck kek temp k = arrival hmac' unwrap' kck kek temp k.
Proof. intros H U. unfold arrival. destruct kck, kek; now rewrite ?H, ?U. Qed.
Lemma forgedb_ext hmac hmac' kck with_fcs sent b : (forall k m, hmac k m = hmac' k m) -> forgedb hmac kck with_fcs sent b = forgedb hmac' kck with_fcs sent b.
Proof. intros H. unfold forgedb. destruct (header_size _); [|reflexivity]. now rewrite H. Qed.
Lemma nothing_forgedb_ext hmac hmac' kck with_fcs past rounds : (forall k m, hmac k m = hmac' k m) ->
  nothing_forgedb hmac kck with_fcs past rounds = nothing_forgedb hmac' kck with_fcs past rounds.
Proof.
  intros H. revert past. induction rounds as [|[s air] rounds IH]; intros past; [reflexivity|]. cbn [nothing_forgedb]. rewrite IH. f_equal.
  induction air as [|b air IHa]; [reflexivity|]. cbn [forallb]. now rewrite IHa, (forgedb_ext hmac hmac' _ _ _ _ H).
Qed.
Local Ltac on_air_now := rewrite (arrival_ext _ _ _ _ _ _ _ _ history_hmac_eq history_unwrap_eq); unfold on_air, frame_mic; rewrite history_hmac_eq; vm_compute; reflexivity.
Definition test_hear {cfg : Cfg} (b : bytes) := deserialize_eapol hmac_sha1_of aes_unwrap (Some test_kck) (Some test_kek) b 100 Ak_Psk false.
Definition ok_sentb (s : KeyFrame bytes) : bool :=
  (key_information s <? 2 ^ 16)%N && (key_length s <? 2 ^ 16)%N && (key_replay_counter s <? 2 ^ 64)%N && (length (key_nonce s) =? 32) && wf_bytesb (key_nonce s) &&
  (key_iv s <? 2 ^ 128)%N && (key_rsc s <? 2 ^ 64)%N && wf_bytesb (key_mic s) && wf_bytesb (key_data s) &&
  (N.of_nat (77 + length (key_mic s) + 2 + length (key_data s)) <? 65536)%N && (length (key_mic s) =? 16).
Lemma ok_sentb_true s : ok_sentb s = true -> ok_sent s.
Proof.
  unfold ok_sentb. rewrite !Bool.andb_true_iff, !N.ltb_lt, !Nat.eqb_eq, !wf_bytesb_spec. intros H. unfold ok_sent, ok_key_frame, u16, u64. tauto.
Qed.
Lemma test_gets {cfg : Cfg} s k air : In (sent_frame s) air -> (if N.testbit (key_information s) 12 then 8 else 0) < length (key_data s) ->
  arrival hmac_sha1_of aes_unwrap (Some test_kck) (Some test_kek) 100 (on_air hmac_sha1_of test_kck s) = Ok k ->
  gets_through strict_end hmac_sha1_of aes_unwrap test_kck (Some test_kek) 100 false s air.
Proof.
  intros J L A. exists test_header, [0; 0; 0]%N, [], k.
  split; [apply test_hypotheses|]. split; [reflexivity|]. split; [repeat constructor|]. split; [reflexivity|].
  split; [now rewrite app_nil_r|]. split; [now right|exact A].
Qed.
Lemma test_sent_ok : Forall ok_sent [first_sent; own_sent; second_sent].
Proof. repeat (apply Forall_cons; [apply ok_sentb_true; vm_compute; reflexivity|]). apply Forall_nil. Qed.
Lemma test_wf : Forall wf_bytes (concat (map snd test_history)).
Proof. apply Forall_forall. intros b J. apply wf_bytesb_spec. revert b J. apply forallb_forall. vm_compute. reflexivity. Qed.
Lemma test_heard {cfg : Cfg} : map test_hear (concat (map snd test_history)) =
  map (fun b => receive_outcome strict_end hmac_sha1_of aes_unwrap (Some test_kck) (Some test_kek) b 100 Ak_Psk) (concat (map snd test_history)).
Proof.
  apply map_ext_in. intros b J. pose proof test_wf as W. rewrite Forall_forall in W.
  unfold test_hear. apply (receive_eq hmac_sha1_of aes_unwrap (hmac_length _ hmac_sha1_ok) (kw_unwrap_length _ _ aes_key_wrap)). now apply W.
Qed.
Lemma test_outcomes strict : exists mic1 mic2 mic3,
  map (fun b => receive_outcome strict hmac_sha1_of aes_unwrap (Some test_kck) (Some test_kek) b 100 Ak_Psk) (concat (map snd test_history)) =
  [Err BufferTooShort; Err InvalidMic; Ok (with_mic first_sent mic1);
   (if strict then Err KeyFrameDeserializationFailure else Ok (with_mic own_sent mic2)); Ok (with_mic first_sent mic1);
   Ok (with_data (with_mic second_sent mic3) (pad_key_data second_data)); Ok (with_mic first_sent mic1);
   Ok (with_data (with_mic second_sent mic3) (pad_key_data second_data))].
Proof.
  exists (frame_mic hmac_sha1_of test_kck first_sent), (frame_mic hmac_sha1_of test_kck own_sent), (frame_mic hmac_sha1_of test_kck second_sent).
  unfold frame_mic. rewrite !history_hmac_eq.
  rewrite (map_ext _ (fun b => receive_outcome strict history_hmac history_unwrap (Some test_kck) (Some test_kek) b 100 Ak_Psk))
    by (intros b; apply receive_ext; [exact history_hmac_eq|exact history_unwrap_eq]).
  destruct strict; vm_compute; reflexivity.
Qed.
Fixpoint receiver_of (wanted : N -> bool) (last : option N) (heard : list (Res EapolSerdeError (KeyFrame bytes))) : list (KeyFrame bytes) :=
  match heard with
  | [] => []
  | Ok k :: rest => if chosen wanted k && newer last (key_replay_counter k) then k :: receiver_of wanted (Some (key_replay_counter k)) rest else receiver_of wanted last rest
  | Err _ :: rest => receiver_of wanted last rest
  | Panic :: _ => []
  end.
Lemma receiver_map hear wanted last air : receiver hear wanted last air = receiver_of wanted last (map hear air).
Proof.
  revert last. induction air as [|b air IH]; intros last; [reflexivity|]. cbn [receiver map receiver_of]. destruct (hear b) as [k|e|]; [|apply IH|reflexivity].
  destruct (_ && _); [f_equal|]; apply IH.
Qed.
Lemma test_history_ok {cfg : Cfg} :
  Forall wf_bytes (concat (map snd test_history)) /\ Forall ok_sent (map fst test_history) /\
  increasing (filter (chosen from_authenticator) (map fst test_history)) /\
  nothing_forged hmac_sha1_of test_kck false [] test_history /\
  Forall (fun b => test_hear b <> Panic) (concat (map snd test_history)) /\
  Forall (fun r => chosen from_authenticator (fst r) = true -> gets_through strict_end hmac_sha1_of aes_unwrap test_kck (Some test_kek) 100 false (fst r) (snd r)) test_history.
Proof.
  split; [|split; [exact test_sent_ok|split; [|split; [apply nothing_forgedb_true; rewrite (nothing_forgedb_ext _ _ _ _ _ _ history_hmac_eq); vm_compute; reflexivity|split]]]].
  - exact test_wf.
  - change (increasing [first_sent; second_sent]). split; [|split; [apply Forall_nil|exact I]]. apply Forall_cons; [reflexivity|apply Forall_nil].
  - destruct (test_outcomes strict_end) as (m1 & m2 & m3 & E). rewrite <- test_heard in E.
    apply Forall_forall. intros b J P. apply (in_map test_hear) in J. rewrite E, P in J. cbn [In] in J. destruct strict_end; intuition discriminate.
  - constructor; [|constructor; [|constructor; [|constructor]]].
    + intros _. cbn [fst snd]. eapply test_gets; [rewrite (proj1 frames_eq); right; right; now left|vm_compute; lia|on_air_now].
    + discriminate.
    + intros _. cbn [fst snd]. eapply test_gets; [rewrite (proj2 (proj2 frames_eq)); now left|vm_compute; lia|on_air_now].
Qed.
Lemma test_received {cfg : Cfg} : map (fun k => (key_replay_counter k, key_data k)) (receiver test_hear from_authenticator None (concat (map snd test_history))) =
  [(1, [48; 2; 1; 0]); (2, pad_key_data second_data)]%N.
Proof.
  rewrite receiver_map, test_heard. destruct (test_outcomes strict_end) as (m1 & m2 & m3 & ->). destruct strict_end; reflexivity.
Qed.
(** one frame of four bytes behind the LLC header ends it *)
Lemma crash {cfg : Cfg} : ~ (forall kck kek temp akm with_fcs wanted (rounds : History), key_mic_len akm = Some 16 ->
  Forall wf_bytes (concat (map snd rounds)) -> Forall ok_sent (map fst rounds) -> increasing (filter (chosen wanted) (map fst rounds)) ->
  nothing_forged hmac_sha1_of kck with_fcs [] rounds ->
  Forall (fun r => chosen wanted (fst r) = true -> gets_through strict_end hmac_sha1_of aes_unwrap kck kek temp with_fcs (fst r) (snd r)) rounds ->
  Forall2 (delivers hmac_sha1_of aes_unwrap kck kek) (filter (chosen wanted) (map fst rounds))
    (receiver (fun b => deserialize_eapol hmac_sha1_of aes_unwrap (Some kck) kek b temp akm with_fcs) wanted None (concat (map snd rounds)))).
Proof.
  intros A. specialize (A test_kck (Some test_kek) 100 Ak_Psk false from_authenticator [(first_sent, [short_frame; first_frame])]).
  assert (E : receiver test_hear from_authenticator None [short_frame; first_frame] = []) by (destruct cfg as [[] [] []]; vm_compute; reflexivity).
  cbn [map concat snd fst app] in A. unfold test_hear in E. rewrite E in A.
  change (filter (chosen from_authenticator) [first_sent]) with [first_sent] in A.
  enough (X : Forall2 (delivers hmac_sha1_of aes_unwrap test_kck (Some test_kek)) [first_sent] []) by inversion X.
  apply A.
  - reflexivity.
  - apply Forall_forall. intros b J. apply wf_bytesb_spec. revert b J. apply forallb_forall. vm_compute. reflexivity.
  - apply Forall_cons; [apply ok_sentb_true; vm_compute; reflexivity|apply Forall_nil].
  - split; [|exact I]. apply Forall_nil.
  - apply nothing_forgedb_true. rewrite (nothing_forgedb_ext _ _ _ _ _ _ history_hmac_eq). vm_compute. reflexivity.
  - constructor; [|constructor]. intros _. cbn [fst snd]. eapply test_gets; [rewrite (proj1 frames_eq); right; now left|vm_compute; lia|on_air_now].
Qed.
(** without looking at the bit that announces a MIC: a frame of anybody is accepted *)
Definition plain_frame : bytes := overwrite (raw_frame 0x0080 16 3 [1; 2; 3]%N) 35 [98]%N.
Lemma unannounced {cfg : Cfg} : ~ (forall kck kek b temp akm with_fcs k, key_mic_len akm = Some 16 -> wf_bytes b -> ~ is_forged hmac_sha1_of kck with_fcs [] b ->
  deserialize_eapol hmac_sha1_of aes_unwrap (Some kck) kek b temp akm with_fcs <> Ok k).
Proof.
  intros A. apply (A test_kck (Some test_kek) plain_frame 100 Ak_Psk false (mkKF 0x0080 0 0 (repeat 0%N 32) 0 0 (repeat 0%N 16) [1; 2; 3]%N)).
  - reflexivity.
  - apply wf_bytesb_spec. vm_compute. reflexivity.
  - apply forgedb_false. rewrite (forgedb_ext _ _ _ _ _ _ history_hmac_eq). vm_compute. reflexivity.
  - destruct cfg as [[] [] []]; vm_compute; reflexivity.
Qed.
(** the frame of the repository's test, for C42 *)
Lemma test_frame_outcomes strict : receive_outcome strict hmac_sha1_of aes_unwrap (Some test_kck) (Some test_kek) test_frame 100 Ak_Psk =
    Ok (test_key_frame test_mic test_data) /\
  receive_outcome strict hmac_sha1_of aes_unwrap None (Some test_kek) test_frame 100 Ak_Psk = Err MissingKey /\
  receive_outcome strict hmac_sha1_of aes_unwrap None None (firstn 38 test_frame) 100 Ak_Psk = Err BufferTooShort /\
  receive_outcome strict hmac_sha1_of aes_unwrap None None (firstn 36 test_frame) 100 Ak_Psk = Panic.
Proof. rewrite !(receive_ext _ _ _ _ _ _ _ _ _ _ known_hmac_eq known_unwrap_eq). destruct strict; vm_compute; auto. Qed.
