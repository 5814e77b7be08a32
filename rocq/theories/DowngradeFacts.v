(** Proofs about downgrade protection. *)
From Verif Require Import Base SpecBase BaseFacts Enums Elements SpecElements ElementsFacts ElementTypes SpecElementTypes ElementTypesFacts Suites Rsn SpecRsn RsnFacts RsnFacts2 RsnFacts3 RsnFacts4
  Mgmt SpecMgmt Data SpecData Eapol SpecEapol KeyMgmt SpecKeyMgmt KeyMgmtFacts2 KeyMgmtFacts6 SpecDelivery HandshakeFacts SpecHandshake SpecArrival Sha1 Aes AesFacts ReceiveFacts SpecReplay ReplayFacts
  ReplayFacts2 SpecScan ScanFacts SpecDowngrade.

Section F.
Context {cfg : Cfg}.
Lemma find_first es rsn : first_rsn es rsn -> find (fun raw => element_id_matches raw (Id 48)) es = Some rsn.
Proof.
  intros (before & after & -> & T & F). induction F as [|e before N F IH]; cbn [app find element_id_matches].
  - now rewrite T.
  - destruct (N.eqb_spec 48 (re_type e)) as [E|_]; [now symmetry in E|exact IH].
Qed.
Lemma first_find es rsn : find (fun raw => element_id_matches raw (Id 48)) es = Some rsn -> first_rsn es rsn.
Proof.
  induction es as [|e es IH]; cbn [find element_id_matches]; [discriminate|]. destruct (N.eqb_spec 48 (re_type e)) as [E|N].
  - intros X. injection X as <-. exists [], es. split; [reflexivity|]. split; [now symmetry|constructor].
  - intros X. destruct (IH X) as (before & after & -> & T & F). exists (e :: before), after. split; [reflexivity|]. split; [exact T|].
    constructor; [|exact F]. intros Y. apply N. now symmetry.
Qed.
Lemma first_more es rsn ps : first_rsn es rsn -> first_rsn (es ++ ps) rsn.
Proof. intros (before & after & -> & T & F). exists before, (after ++ ps). split; [now rewrite <- app_assoc|]. split; assumption. Qed.
Lemma genuine_lookup clear rsn : genuine clear rsn <-> get_first_element_raw clear (Id 48) = Ok (Some rsn).
Proof.
  unfold genuine, get_first_element_raw. split.
  - intros (es & -> & F). cbn [rbind]. now rewrite (find_first _ _ F).
  - destruct (raw_elements clear) as [es|e|] eqn:E; cbn [rbind]; try discriminate. intros X. injection X as X. exists es. split; [reflexivity|now apply first_find].
Qed.
Lemma same_element_eq a b : same_element a b = true <-> a = b.
Proof.
  unfold same_element. destruct a as [t s], b as [t' s']. cbn [re_type re_slice]. destruct (N.eqb_spec t t') as [<-|N]; cbn [andb].
  - destruct (list_eq_dec N.eq_dec s s') as [<-|N]; split; congruence.
  - split; congruence.
Qed.
Lemma confirmed_lookup hmac wrap unwrap kck kek rsn s k : key_wrap wrap unwrap -> confirms wrap kek rsn s -> delivers hmac unwrap kck (Some kek) s k ->
  get_first_element_raw (key_data k) (Id 48) = Ok (Some rsn).
Proof.
  intros KW (es & F & FT & W & EV & D) (_ & _ & X). apply genuine_lookup.
  assert (NE : enc_elements es <> []).
  { destruct F as (before & after & -> & _). rewrite enc_elements_app. intros Y. apply app_eq_nil in Y as [_ Y]. discriminate Y. }
  unfold sent_data in D. destruct (N.testbit (key_information s) 12).
  - destruct X as (key & K & U). injection K as <-. rewrite D in U. destruct (enc_elements es) as [|b kd] eqn:E; [contradiction|]. rewrite <- E in *.
    destruct (pad_length (enc_elements es)) as (_ & P1 & P2). rewrite (kw_inverse _ _ KW) in U; [|exact P1|exact P2|now apply pad_key_data_wf].
    injection U as <-. destruct (pad_elements es FT EV) as (ps & R & _). exists (es ++ ps). split; [exact R|now apply first_more].
  - rewrite X, D. exists es. split; [|exact F]. pose proof (raw_elements_enc es [] FT EV iteration_end_nil) as E. now rewrite app_nil_r in E.
Qed.
Lemma goes_on_genuine hmac wrap unwrap kck kek rsn s k clear : key_wrap wrap unwrap -> confirms wrap kek rsn s -> delivers hmac unwrap kck (Some kek) s k ->
  (goes_on clear (key_data k) = true <-> genuine clear rsn).
Proof.
  intros KW C D. unfold goes_on. rewrite (confirmed_lookup _ _ _ _ _ _ _ _ KW C D), genuine_lookup.
  destruct (get_first_element_raw clear (Id 48)) as [[a|]|e|]; [|split; discriminate..].
  rewrite same_element_eq. split; congruence.
Qed.
Lemma subsequence_in {A} (l l' : list A) x : subsequence l l' -> In x l -> In x l'.
Proof. induction 1 as [|y l l' S IH|y l l' S IH]; intros J; [exact J|right; now apply IH|destruct J as [->|J]; [now left|right; now apply IH]]. Qed.
Lemma forall2_right {A B} (R : A -> B -> Prop) l l' y : Forall2 R l l' -> In y l' -> exists x, In x l /\ R x y.
Proof.
  induction 1 as [|a b l l' H F IH]; intros J; [destruct J|]. destruct J as [->|J]; [exists a; split; [now left|exact H]|].
  destruct (IH J) as (x & I & Q). exists x. split; [now right|exact Q].
Qed.
Theorem protected hmac wrap unwrap : hmac_sha1 hmac -> key_wrap wrap unwrap ->
  forall kck kek temp akm with_fcs wanted, key_mic_len akm = Some 16 ->
  forall sent air last rsn, Forall wf_bytes air -> Forall ok_sent sent -> increasing (filter (chosen wanted) sent) ->
  Forall (fun b => ~ is_forged hmac kck with_fcs sent b) air ->
  Forall (confirms wrap kek rsn) (filter (chosen wanted) sent) ->
  forall clear k, In k (receiver (fun b => deserialize_eapol hmac unwrap (Some kck) (Some kek) b temp akm with_fcs) wanted last air) ->
  (goes_on clear (key_data k) = true <-> genuine clear rsn).
Proof.
  intros HM KW kck kek temp akm with_fcs wanted M sent air last rsn WA OS IN NF CF clear k J.
  destruct (in_order hmac wrap unwrap HM KW kck (Some kek) temp akm with_fcs wanted M sent air last WA OS IN NF) as (l & S & D & _).
  destruct (forall2_right _ _ _ _ D J) as (s & I & Ds). apply (subsequence_in _ _ _ S) in I. rewrite Forall_forall in CF. specialize (CF s I).
  now apply (goes_on_genuine hmac wrap unwrap kck kek rsn s k clear).
Qed.
Lemma find_map_first {B} (f : RawElement -> Res serr (option B)) before rsn after x : Forall (fun e => f e = Ok None) before -> f rsn = Ok (Some x) ->
  find_map_res f (before ++ rsn :: after) = Ok (Some x).
Proof. intros F E. induction F as [|e before N F IH]; cbn [app find_map_res]; [rewrite E|rewrite N]; cbn [rbind]; [reflexivity|exact IH]. Qed.
Lemma genuine_read clear rsn x : genuine clear rsn -> parse_raw_element RsnElement rsn = Ok (Some x) -> get_first_element RsnElement clear = Ok (Some x).
Proof.
  intros (es & R & before & after & -> & T & F) P. unfold get_first_element. rewrite R. cbn [rbind]. apply find_map_first.
  - eapply Forall_impl; [|exact F]. intros e N. cbv beta in N. unfold match_and_parse. cbn [RsnElement et_id element_id_matches].
    destruct (N.eqb_spec 48 (re_type e)) as [E|_]; [now symmetry in E|reflexivity].
  - unfold match_and_parse. cbn [RsnElement et_id element_id_matches]. rewrite T. exact P.
Qed.
Lemma security_read v rsn : security_element v rsn -> parse_raw_element RsnElement rsn = Ok (Some (received v)).
Proof.
  intros (-> & OV & G & L & EL & PM & CR). pose proof (enc_standard v PM) as X.
  assert (L4 : length (enc_rsn 4 v) <= 255) by now rewrite X.
  assert (RD : ReadsAll rd_rsn (enc_rsn 4 v) (received v)) by (apply rd_rsn_written; try assumption; now apply fit_255).
  rewrite X in RD. unfold ReadsAll in RD.
  unfold parse_raw_element. cbn [RsnElement et_id raw_element_body rbind re_slice et_read].
  unfold pread, gread. pose proof (rsn_long v) as Z.
  assert (E : end_bad 0 (length (enc_rsn 1 v)) = false).
  { unfold end_bad. destruct strict_end; [apply Nat.leb_gt|apply Nat.ltb_ge]; lia. }
  rewrite E. cbn [skipn]. rewrite RD. reflexivity.
Qed.
Theorem protected_security hmac wrap unwrap : hmac_sha1 hmac -> key_wrap wrap unwrap ->
  forall kck kek temp akm with_fcs wanted, key_mic_len akm = Some 16 ->
  forall sent air last v rsn, Forall wf_bytes air -> Forall ok_sent sent -> increasing (filter (chosen wanted) sent) ->
  Forall (fun b => ~ is_forged hmac kck with_fcs sent b) air ->
  security_element v rsn -> Forall (confirms wrap kek rsn) (filter (chosen wanted) sent) ->
  forall clear k, In k (receiver (fun b => deserialize_eapol hmac unwrap (Some kck) (Some kek) b temp akm with_fcs) wanted last air) ->
  goes_on clear (key_data k) = true -> exists y, get_first_element RsnElement clear = Ok (Some y) /\ shows y v.
Proof.
  intros HM KW kck kek temp akm with_fcs wanted M sent air last v rsn WA OS IN NF SE CF clear k J G.
  apply (protected hmac wrap unwrap HM KW kck kek temp akm with_fcs wanted M sent air last rsn WA OS IN NF CF clear k J) in G.
  exists (received v). split; [|apply received_shows]. apply (genuine_read _ rsn); [exact G|now apply security_read].
Qed.
Theorem confirming hmac wrap unwrap : hmac_sha1 hmac -> key_wrap wrap unwrap ->
  forall kck kek h oui (k : KeyFrame Container) c es rsn buffer temp buf' n,
  ok_data_header h -> length oui = 3 -> wf_bytes oui -> chain_of_elements c es -> wf_bytes (enc_elements es) -> key_data k = c_chain c -> first_rsn es rsn ->
  let sent := with_data k (sent_data wrap kek (key_information k) (enc_elements es)) in
  ok_key_frame (with_data k (enc_elements es)) -> ok_key_frame sent -> key_mic k = repeat 0%N 16 -> N.testbit (key_information k) 8 = true ->
  length (enc_eapol h oui 0x888e (with_data k (enc_elements es))) + slack <= length buffer ->
  serialize_eapol hmac wrap (Some kck) (Some kek) (h, Some (mkSnap oui 0x888e k)) buffer temp = Ok (buf', n) ->
  firstn n buf' = enc_eapol h oui 0x888e (on_air hmac kck sent) /\ ok_sent sent /\ confirms wrap kek rsn sent.
Proof.
  intros HM KW kck kek h oui k c es rsn buffer temp buf' n H LO WO (C1 & C2 & C3 & EV) W EK FR sent O1 O2 KM B8 LB S.
  assert (WR : Writes (c_write (key_data k)) (enc_elements es)) by (rewrite EK; now apply wr_chain_W).
  destruct (sent_on_air hmac wrap unwrap HM KW kck kek h oui k (enc_elements es) buffer temp buf' n H LO WO WR W O1 O2 KM B8 LB S) as (X & Y & _).
  split; [exact X|]. split; [exact Y|]. exists es. split; [exact FR|]. split; [exact C3|]. split; [exact W|]. split; [exact EV|reflexivity].
Qed.
End F.

(** A network that offers CCMP with PSK sends its third message, encrypted, with its RSN element and a group key. Its beacons have the same RSN
    element; the beacons of somebody else, with its address, tell of TKIP. *)
Definition offered : RsnView := mkView (Some Cs_Ccmp128) (Some [Cs_Ccmp128]) (Some [Ak_Psk]) None None None.
Definition offered_element : RawElement := mkRaw 48 (enc_rsn 1 offered).
Definition third_elements : list RawElement := [offered_element; mkRaw 221 [0; 15; 172; 1; 1; 0; 9; 9; 9; 9; 9]]%N.
(** wrapped, and as bytes (lemmas [third_wrapped_eq] and [third_frame_eq]) *)
Definition third_wrapped : bytes := Eval vm_compute in aes_wrap test_kek (pad_key_data (enc_elements third_elements)).
Definition third_sent : KeyFrame bytes := mkKF 0x13ca 16 2 (repeat 7%N 32) 0 0 (repeat 0%N 16) third_wrapped.
Definition third_frame : bytes := Eval vm_compute in sent_frame third_sent.
Definition third_air : list bytes := [[1; 2; 3]%N; third_frame].
Definition third_hash : bytes := Eval vm_compute in hmac_sha1_of test_kck (enc_key_frame third_sent).
Definition third_hmac : bytes -> bytes -> bytes := from_table [(test_kck, enc_key_frame third_sent, third_hash)] hmac_sha1_of.
Definition third_unwrap : bytes -> bytes -> option bytes := from_table [(test_kek, third_wrapped, Some (pad_key_data (enc_elements third_elements)))] aes_unwrap.
Lemma third_wrapped_eq : aes_wrap test_kek (pad_key_data (enc_elements third_elements)) = third_wrapped.
Proof. vm_compute. reflexivity. Qed.
Lemma third_hmac_eq k m : hmac_sha1_of k m = third_hmac k m.
Proof. apply from_table_eq. apply Forall_cons; [vm_compute; reflexivity|]. apply Forall_nil. Qed.
Lemma third_unwrap_eq k m : aes_unwrap k m = third_unwrap k m.
Proof.
  apply from_table_eq. apply Forall_cons; [|apply Forall_nil]. cbn [fst snd]. rewrite <- third_wrapped_eq.
  apply (kw_inverse _ _ aes_key_wrap); [apply Nat.leb_le; reflexivity|reflexivity|apply wf_bytesb_spec; reflexivity].
Qed.
Lemma third_frame_eq : sent_frame third_sent = third_frame.
Proof. unfold sent_frame, on_air, frame_mic. rewrite third_hmac_eq. vm_compute. reflexivity. Qed.
Definition true_beacon : bytes := enc_elements [mkRaw 0 [72; 111; 109; 101]; offered_element; mkRaw 3 [6]]%N.
Definition false_beacon : bytes :=
  enc_elements [mkRaw 0 [72; 111; 109; 101]; mkRaw 48 (enc_rsn 1 (mkView (Some Cs_Tkip) (Some [Cs_Tkip]) (Some [Ak_Psk]) None None None)); offered_element]%N.
Definition third_received : list (KeyFrame bytes) := [with_data (with_mic third_sent (frame_mic hmac_sha1_of test_kck third_sent)) (pad_key_data (enc_elements third_elements))].
Lemma third_data : key_data third_sent = sent_data aes_wrap test_kek (key_information third_sent) (enc_elements third_elements).
Proof.
  unfold sent_data. change (N.testbit (key_information third_sent) 12) with true. cbv iota. destruct (enc_elements third_elements) as [|b kd] eqn:E; [discriminate E|].
  rewrite <- E, third_wrapped_eq. reflexivity.
Qed.
Lemma third_confirms {cfg : Cfg} : confirms aes_wrap test_kek offered_element third_sent.
Proof.
  exists third_elements. split; [exists [], [mkRaw 221 [0; 15; 172; 1; 1; 0; 9; 9; 9; 9; 9]]%N; split; [reflexivity|split; [reflexivity|constructor]]|].
  split; [repeat (apply Forall_cons; [unfold fits; cbn; lia|]); apply Forall_nil|]. split; [apply wf_bytesb_spec; reflexivity|].
  split; [right; right; discriminate|exact third_data].
Qed.
Lemma offered_ok {cfg : Cfg} : security_element offered offered_element.
Proof.
  split; [reflexivity|]. split; [cbn; repeat split; repeat constructor|]. split; [apply gap_free_eq; reflexivity|]. split; [cbn; lia|].
  split; [right; exact I|]. split; [reflexivity|now right].
Qed.
Lemma third_wf : Forall wf_bytes third_air.
Proof. apply Forall_forall. intros b J. apply wf_bytesb_spec. revert b J. apply forallb_forall. vm_compute. reflexivity. Qed.
Lemma third_taken {cfg : Cfg} : receiver test_hear from_authenticator None third_air = third_received.
Proof.
  rewrite receiver_map. assert (E : map test_hear third_air =
    map (fun b => receive_outcome strict_end hmac_sha1_of aes_unwrap (Some test_kck) (Some test_kek) b 100 Ak_Psk) third_air).
  { apply map_ext_in. intros b J. pose proof third_wf as W. rewrite Forall_forall in W.
    unfold test_hear. apply (receive_eq hmac_sha1_of aes_unwrap (hmac_length _ hmac_sha1_ok) (kw_unwrap_length _ _ aes_key_wrap)). now apply W. }
  rewrite E. unfold third_received, frame_mic. rewrite third_hmac_eq.
  rewrite (map_ext _ (fun b => receive_outcome strict_end third_hmac third_unwrap (Some test_kck) (Some test_kek) b 100 Ak_Psk))
    by (intros b; apply receive_ext; [exact third_hmac_eq|exact third_unwrap_eq]).
  destruct strict_end; vm_compute; reflexivity.
Qed.
Lemma third_ok {cfg : Cfg} : Forall wf_bytes third_air /\ Forall ok_sent [third_sent] /\ increasing (filter (chosen from_authenticator) [third_sent]) /\
  Forall (fun b => ~ is_forged hmac_sha1_of test_kck false [third_sent] b) third_air /\
  Forall (confirms aes_wrap test_kek offered_element) (filter (chosen from_authenticator) [third_sent]) /\ security_element offered offered_element.
Proof.
  split; [exact third_wf|]. split; [apply Forall_cons; [apply ok_sentb_true; vm_compute; reflexivity|apply Forall_nil]|].
  split; [change (increasing [third_sent]); split; [apply Forall_nil|exact I]|].
  split.
  { assert (N : nothing_forged hmac_sha1_of test_kck false [] [(third_sent, third_air)]) by (apply nothing_forgedb_true; rewrite (nothing_forgedb_ext _ _ _ _ _ _ third_hmac_eq); vm_compute; reflexivity).
    exact (proj1 N). }
  split; [|exact offered_ok]. change (filter (chosen from_authenticator) [third_sent]) with [third_sent]. apply Forall_cons; [exact third_confirms|apply Forall_nil].
Qed.
Lemma third_compared {cfg : Cfg} : length third_received = 1 /\
  map (fun k => (goes_on true_beacon (key_data k), goes_on false_beacon (key_data k))) third_received = [(true, false)].
Proof. split; [reflexivity|]. unfold third_received. cbn [map with_data key_data]. destruct cfg as [[] [] []]; vm_compute; reflexivity. Qed.
(** an RSN element of a later version, and behind it one of somebody else *)
Lemma unreadable {cfg : Cfg} : exists rsn s clear y, confirms aes_wrap test_kek rsn s /\ goes_on clear (key_data s) = true /\ genuine clear rsn /\
  parse_raw_element RsnElement rsn = Ok None /\
  get_first_element RsnElement clear = Ok (Some y) /\ shows y (mkView (Some Cs_Tkip) (Some [Cs_Tkip]) (Some [Ak_Psk]) None None None).
Proof.
  set (t := mkView (Some Cs_Tkip) (Some [Cs_Tkip]) (Some [Ak_Psk]) None None None).
  exists (mkRaw 48 [2; 0; 1; 2; 3]%N), (mkKF 0x03ca 16 2 (repeat 7%N 32) 0 0 (repeat 0%N 16) (enc_elements [mkRaw 48 [2; 0; 1; 2; 3]%N])),
    (enc_elements [mkRaw 48 [2; 0; 1; 2; 3]; mkRaw 48 (enc_rsn 1 t)]%N), (received t).
  split.
  { exists [mkRaw 48 [2; 0; 1; 2; 3]%N]. split; [exists [], []; split; [reflexivity|split; [reflexivity|constructor]]|].
    split; [apply Forall_cons; [unfold fits; cbn; lia|apply Forall_nil]|]. split; [apply wf_bytesb_spec; reflexivity|].
    split; [right; right; discriminate|reflexivity]. }
  split; [destruct cfg as [[] [] []]; vm_compute; reflexivity|].
  split; [apply genuine_lookup; destruct cfg as [[] [] []]; vm_compute; reflexivity|].
  split; [destruct cfg as [[] [] []]; vm_compute; reflexivity|].
  split; [destruct cfg as [[] [] []]; vm_compute; reflexivity|apply received_shows].
Qed.
