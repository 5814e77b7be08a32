(** Proofs about key data with elements and about the four-way handshake as a whole. *)
From Verif Require Import Base BaseFacts SpecBase Enums Common Elements SpecElements ElementsFacts ElementTypes SpecElementTypes ElementTypesFacts ElementTypesFacts3 Suites Mgmt SpecMgmt
  Data SpecData Rsn Eapol SpecEapol KeyMgmt SpecKeyMgmt KeyMgmtFacts KeyMgmtFacts6 SpecDelivery SpecHandshake.

Section Facts.
Context {cfg : Cfg}.

Lemma enc_elements_app a b : enc_elements (a ++ b) = enc_elements a ++ enc_elements b.
Proof. unfold enc_elements. now rewrite map_app, concat_app. Qed.
Lemma zeros_split n : exists k tail, repeat 0%N n = enc_elements (repeat (mkRaw 0 []) k) ++ tail /\ (tail = [] \/ tail = [0]%N).
Proof.
  assert (X : (exists k tail, repeat 0%N n = enc_elements (repeat (mkRaw 0 []) k) ++ tail /\ (tail = [] \/ tail = [0]%N)) /\
              (exists k tail, repeat 0%N (S n) = enc_elements (repeat (mkRaw 0 []) k) ++ tail /\ (tail = [] \/ tail = [0]%N))); [|tauto].
  induction n as [|n [IH1 IH2]].
  - split; exists 0; eexists; (split; [reflexivity|auto]).
  - split; [exact IH2|]. destruct IH1 as (k & tail & E & T). exists (S k), tail. split; [|exact T].
    change (repeat 0%N (S (S n))) with ([0; 0]%N ++ repeat 0%N n). rewrite E. reflexivity.
Qed.
Definition pad_element (e : RawElement) : Prop := e = mkRaw 221 [] \/ e = mkRaw 0 [].
Lemma padding_split n : exists ps tail, 0xdd%N :: repeat 0%N n = enc_elements ps ++ tail /\ Forall pad_element ps /\ iteration_end tail /\
  (strict_end = false \/ tail <> []).
Proof.
  assert (R : forall k, Forall pad_element (repeat (mkRaw 0 []) k)).
  { intros k. apply Forall_forall. intros x H. apply repeat_spec in H. now right. }
  destruct n as [|n]. { exists [], [0xdd]%N. repeat split; [constructor|now left|right; discriminate]. }
  destruct (zeros_split n) as (k & tail & E & T).
  assert (F : 0xdd%N :: repeat 0%N (S n) = enc_elements (mkRaw 221 [] :: repeat (mkRaw 0 []) k) ++ tail).
  { change (enc_elements (mkRaw 221 [] :: repeat (mkRaw 0 []) k)) with ([0xdd; 0]%N ++ enc_elements (repeat (mkRaw 0 []) k)).
    rewrite <- app_assoc, <- E. reflexivity. }
  destruct T as [-> | ->].
  - destruct strict_end eqn:S.
    + assert (X : exists ps t, mkRaw 221 [] :: repeat (mkRaw 0 []) k = ps ++ [mkRaw t []] /\ Forall pad_element ps).
      { destruct k as [|k]; [exists [], 221%N; split; [reflexivity|constructor]|].
        exists (mkRaw 221 [] :: repeat (mkRaw 0 []) k), 0%N. split; [|constructor; [now left|apply R]].
        cbn [app]. f_equal. change [mkRaw 0 []] with (repeat (mkRaw 0 []) 1). rewrite <- repeat_app. f_equal. lia. }
      destruct X as (ps & t & X & P). exists ps, [t; 0%N]. rewrite F, X, enc_elements_app, app_nil_r. split; [reflexivity|].
      split; [exact P|]. split; [right; split; [assumption|eauto]|right; discriminate].
    + exists (mkRaw 221 [] :: repeat (mkRaw 0 []) k), []. split; [exact F|]. split; [constructor; [now left|apply R]|].
      split; [apply iteration_end_nil|auto].
  - exists (mkRaw 221 [] :: repeat (mkRaw 0 []) k), [0]%N. split; [exact F|]. split; [constructor; [now left|apply R]|].
    split; [now left|right; discriminate].
Qed.
Lemma pad_elements raws : Forall fits raws -> end_visible raws [] ->
  exists ps, raw_elements (pad_key_data (enc_elements raws)) = Ok (raws ++ ps) /\ Forall pad_element ps.
Proof.
  intros F V. unfold pad_key_data. destruct (_ - length (enc_elements raws)) as [|n].
  - exists []. rewrite !app_nil_r. split; [|constructor]. pose proof (raw_elements_enc raws [] F V iteration_end_nil) as E. now rewrite app_nil_r in E.
  - destruct (padding_split n) as (ps & tail & E & P & IE & T). exists ps. split; [|exact P].
    rewrite E, app_assoc, <- enc_elements_app. apply raw_elements_enc; [|destruct T; [now left|right; now left]|exact IE].
    apply Forall_app. split; [exact F|]. eapply Forall_impl; [|exact P]. intros e [-> | ->]; cbn; unfold fits; cbn; lia.
Qed.
Lemma pad_no_match {W R} (t : ElementType W R) ps : lookup_id (et_id t) -> key_data_id (et_id t) -> Forall pad_element ps ->
  Forall (fun e => match_and_parse t e = Ok None) ps.
Proof.
  intros L K. apply Forall_impl. intros e P. unfold match_and_parse. destruct (element_id_matches e (et_id t)) eqn:M; [|reflexivity].
  exfalso. apply (element_id_matches_spec e (et_id t) L) in M. destruct M as (body & M).
  destruct P as [-> | ->]; destruct (et_id t) as [i|x|p]; cbn in M, K, L; try discriminate M.
  - injection M as <- _. tauto.
  - injection M as M. symmetry in M. apply app_eq_nil in M. tauto.
  - injection M as <- _. tauto.
Qed.
Lemma filter_map_none {A B} (f : A -> Res serr (option B)) l ps : Forall (fun e => f e = Ok None) ps ->
  filter_map_res f (l ++ ps) = filter_map_res f l.
Proof.
  intros F. induction l as [|a l IH]; cbn [app filter_map_res].
  - induction F as [|e ps E _ IH]; [reflexivity|]. cbn [filter_map_res]. rewrite E. cbn [rbind]. rewrite IH. reflexivity.
  - now rewrite IH.
Qed.
Lemma find_map_none {A B} (f : A -> Res serr (option B)) l ps : Forall (fun e => f e = Ok None) ps ->
  find_map_res f (l ++ ps) = find_map_res f l.
Proof.
  intros F. induction l as [|a l IH]; cbn [app find_map_res].
  - induction F as [|e ps E _ IH]; [reflexivity|]. cbn [find_map_res]. rewrite E. cbn [rbind]. exact IH.
  - now rewrite IH.
Qed.
Lemma padding_transparent {W R} (t : ElementType W R) raws : lookup_id (et_id t) -> key_data_id (et_id t) -> Forall fits raws -> end_visible raws [] ->
  get_matching_elements t (pad_key_data (enc_elements raws)) = get_matching_elements t (enc_elements raws) /\
  get_first_element t (pad_key_data (enc_elements raws)) = get_first_element t (enc_elements raws).
Proof.
  intros L K F V. destruct (pad_elements raws F V) as (ps & E & P). apply (pad_no_match t) in P; [|exact L|exact K].
  pose proof (raw_elements_enc raws [] F V iteration_end_nil) as E0. rewrite app_nil_r in E0.
  unfold get_matching_elements, get_first_element. rewrite E, E0. cbn [rbind]. split; [now apply filter_map_none|now apply find_map_none].
Qed.

Lemma pad_length kd : length kd <= length (pad_key_data kd) <= length kd + 16 /\ 16 <= length (pad_key_data kd) /\
  length (pad_key_data kd) mod 8 = 0.
Proof.
  unfold pad_key_data. rewrite app_length. set (m := Nat.max 16 (8 * ((length kd + 7) / 8))).
  assert (M : length kd <= m /\ 16 <= m /\ m <= length kd + 16 /\ m mod 8 = 0).
  { unfold m. pose proof (Nat.div_mod (length kd + 7) 8 ltac:(lia)). pose proof (Nat.mod_upper_bound (length kd + 7) 8 ltac:(lia)).
    destruct (Nat.max_spec 16 (8 * ((length kd + 7) / 8))) as [[A ->]|[A ->]]; (split; [lia|split; [lia|split; [lia|]]]).
    - rewrite Nat.mul_comm. now apply Nat.mod_mul.
    - reflexivity. }
  assert (E : length (match m - length kd with O => [] | S n => 0xdd%N :: repeat 0%N n end) = m - length kd).
  { destruct (m - length kd); cbn [length]; [reflexivity|now rewrite repeat_length]. }
  rewrite E. replace (length kd + (m - length kd)) with m by lia. lia.
Qed.
Lemma pad_wf kd : wf_bytes kd -> wf_bytes (pad_key_data kd).
Proof.
  intros W. unfold pad_key_data. apply wf_bytes_app. split; [exact W|]. destruct (_ - _); [constructor|].
  constructor; [reflexivity|]. apply Forall_forall. intros x H. apply repeat_spec in H. now subst x.
Qed.
Lemma chain_not_empty c raws : Forall2 item_element (chain_items c) raws -> enc_elements raws <> [].
Proof. intros I. destruct c; cbn [chain_items] in I; inversion I; subst; cbn; discriminate. Qed.

Lemma keys_agree hmac pmk aa spa anonce snonce n akm cipher kl el tl : hmac_sha1 hmac ->
  kck_len akm = Some kl -> kek_len akm = Some el -> tk_len cipher = Some tl -> kl + el + tl <= n ->
  exists kck kek tk,
    partition_ptk (derive_ptk hmac pmk aa spa anonce snonce n) akm cipher = Some (kck, kek, tk) /\
    partition_ptk (derive_ptk hmac pmk spa aa snonce anonce n) akm cipher = Some (kck, kek, tk) /\
    length kck = kl /\ length kek = el /\ length tk = tl.
Proof.
  intros HM K1 K2 K3 L. rewrite <- (derive_ptk_sym hmac pmk aa spa anonce snonce n).
  destruct (partition_ptk (derive_ptk hmac pmk aa spa anonce snonce n) akm cipher) as [[[kck kek] tk]|] eqn:P.
  - exists kck, kek, tk. split; [reflexivity|]. split; [reflexivity|]. apply partition_some in P as (A & B & C & _). repeat split; congruence.
  - exfalso. apply partition_none in P as [P|[P|[P|(a & b & c & A & B & C & P)]]]; try congruence.
    assert (D : length (derive_ptk hmac pmk aa spa anonce snonce n) = n).
    { unfold derive_ptk. destruct (sort_lexicographically aa spa), (sort_lexicographically anonce snonce). now apply prf_iter_length. }
    rewrite D in P. assert (a = kl) by congruence. assert (b = el) by congruence. assert (c = tl) by congruence. lia.
Qed.
Lemma message hmac wrap unwrap kck kek akm h oui (k : KeyFrame Container) c raws buffer temp temp' : hmac_sha1 hmac -> key_wrap wrap unwrap ->
  key_mic_len akm = Some 16 ->
  ok_data_header h -> length oui = 3 -> wf_bytes oui ->
  chain_of_elements c raws -> wf_bytes (enc_elements raws) -> (N.of_nat (length (enc_elements raws)) < 65000)%N ->
  key_data k = c_chain c -> ok_key_frame (with_data k (enc_elements raws)) -> key_mic k = repeat 0%N 16 ->
  length (enc_elements raws) + 24 <= temp -> length (enc_elements raws) + 16 <= temp' ->
  length (enc_eapol h oui 0x888e (with_data k (enc_elements raws))) + 24 + slack <= length buffer ->
  exists buf' m k',
    serialize_eapol hmac wrap (Some kck) (Some kek) (h, Some (mkSnap oui 0x888e k)) buffer temp = Ok (buf', m) /\
    deserialize_eapol hmac unwrap (Some kck) (Some kek) (firstn m buf') temp' akm false = Ok k' /\
    same_fields k k' /\
    key_data k' = received_data (key_information k) (enc_elements raws) /\
    forall V Q (t : ElementType V Q) okv cv os,
      lookup_id (et_id t) -> key_data_id (et_id t) -> NoPanic (et_read t) -> RoundTrip t okv cv ->
      holds_values t okv (chain_items c) os ->
      get_matching_elements t (key_data k') = Ok (map cv (somes os)) /\
      get_first_element t (key_data k') = Ok (option_map cv (hd_error (somes os))).
Proof.
  intros HM KW KM H LO WO (C1 & C2 & C3 & C4) WE LE KD OK ZM T1 T2 LB.
  pose proof (chain_not_empty c raws C1) as NE. set (kd := enc_elements raws) in *.
  pose proof (pad_length kd) as (PL & P16 & P8).
  set (info := key_information k).
  assert (SD : length (sent_data wrap kek info kd) <= length kd + 24 /\ wf_bytes (sent_data wrap kek info kd)).
  { unfold sent_data. destruct (N.testbit info 12); [|split; [lia|exact WE]].
    destruct kd eqn:EK; [contradiction|]. rewrite <- EK in *. split; [rewrite (kw_length _ _ KW) by assumption; lia|].
    apply (kw_wf _ _ KW). now apply pad_wf. }
  assert (OK' : ok_key_frame (with_data k (sent_data wrap kek info kd))).
  { unfold ok_key_frame in *. cbn [with_data key_information key_length key_replay_counter key_nonce key_iv key_rsc key_mic key_data] in *.
    repeat (split; [tauto|]). rewrite ZM, repeat_length. lia. }
  assert (LF : forall mic, length mic = 16 -> length (enc_eapol h oui 0x888e (with_mic (with_data k (sent_data wrap kek info kd)) mic)) <=
    length (enc_eapol h oui 0x888e (with_data k kd)) + 24).
  { intros mic LM. unfold enc_eapol, enc_data, enc_key_frame, enc_key_body. rewrite !app_length, !be_bytes_length.
    cbn [with_mic with_data key_mic key_data]. rewrite ZM, LM, repeat_length. unfold enc_key_fields. cbn [with_mic with_data key_information key_length key_replay_counter key_nonce key_iv key_rsc key_mic key_data]. lia. }
  destruct (round_trip hmac wrap unwrap HM KW kck kek (Some kck) (Some kek) h oui k kd akm buffer temp temp' [] false) as [S D]; auto.
  - rewrite KD. now apply wr_chain_W.
  - intros _. fold info. cbn [with_data key_data]. repeat split; [exact NE|lia|lia].
  - lia.
  - fold info. assert (X : length (if N.testbit info 8 then frame_mic hmac kck (with_data k (sent_data wrap kek info kd)) else repeat 0%N 16) = 16).
    { destruct (N.testbit info 8); [|apply repeat_length]. unfold frame_mic. rewrite firstn_length, (hmac_length _ HM). lia. }
    specialize (LF _ X). eapply Nat.le_trans; [apply Nat.add_le_mono_r; exact LF|exact LB].
  - fold info in S, D. rewrite app_nil_r in D. do 3 eexists. split; [exact S|]. split; [rewrite firstn_app_exact by reflexivity; exact D|].
    split; [repeat split|]. split; [reflexivity|]. intros V Q t okv cv os L K NP RT HV. cbn [with_data with_mic key_data].
    destruct (lookup_written t okv cv c raws os L NP RT C1 C2 C3 C4 HV) as (_ & G1 & G2).
    destruct (padding_transparent t raws L K C3 C4) as [Q1 Q2]. fold kd in Q1, Q2.
    unfold received_data. destruct (N.testbit info 12); [|split; assumption].
    destruct kd eqn:EK; [contradiction|]. rewrite <- EK in *. rewrite Q1, Q2. split; assumption.
Qed.

Lemma handshake hmac wrap unwrap pmk aa spa anonce snonce n akm cipher kl el tl : hmac_sha1 hmac -> key_wrap wrap unwrap ->
  kck_len akm = Some kl -> kek_len akm = Some el -> tk_len cipher = Some tl -> kl + el + tl <= n -> key_mic_len akm = Some 16 ->
  exists kck kek tk,
    partition_ptk (derive_ptk hmac pmk aa spa anonce snonce n) akm cipher = Some (kck, kek, tk) /\
    partition_ptk (derive_ptk hmac pmk spa aa snonce anonce n) akm cipher = Some (kck, kek, tk) /\
    forall h oui (k : KeyFrame Container) c raws buffer temp temp',
    ok_data_header h -> length oui = 3 -> wf_bytes oui ->
    chain_of_elements c raws -> wf_bytes (enc_elements raws) -> (N.of_nat (length (enc_elements raws)) < 65000)%N ->
    key_data k = c_chain c -> ok_key_frame (with_data k (enc_elements raws)) -> key_mic k = repeat 0%N 16 ->
    length (enc_elements raws) + 24 <= temp -> length (enc_elements raws) + 16 <= temp' ->
    length (enc_eapol h oui 0x888e (with_data k (enc_elements raws))) + 24 + slack <= length buffer ->
    exists buf' m k',
      serialize_eapol hmac wrap (Some kck) (Some kek) (h, Some (mkSnap oui 0x888e k)) buffer temp = Ok (buf', m) /\
      deserialize_eapol hmac unwrap (Some kck) (Some kek) (firstn m buf') temp' akm false = Ok k' /\
      same_fields k k' /\
      key_data k' = received_data (key_information k) (enc_elements raws) /\
      forall V Q (t : ElementType V Q) okv cv os,
        lookup_id (et_id t) -> key_data_id (et_id t) -> NoPanic (et_read t) -> RoundTrip t okv cv ->
        holds_values t okv (chain_items c) os ->
        get_matching_elements t (key_data k') = Ok (map cv (somes os)) /\
        get_first_element t (key_data k') = Ok (option_map cv (hd_error (somes os))).
Proof.
  intros HM KW K1 K2 K3 L KM. destruct (keys_agree hmac pmk aa spa anonce snonce n akm cipher kl el tl HM K1 K2 K3 L) as (kck & kek & tk & P1 & P2 & _).
  exists kck, kek, tk. split; [exact P1|]. split; [exact P2|]. intros. eapply message; eassumption.
Qed.
Lemma fixed_round_trip {A} (t : ElementType A A) id size (ok : A -> Prop) canon enc : FixedLayout t id size ok canon enc -> RoundTrip t ok (fun x => x).
Proof.
  intros F w Hw. destruct (fl_write _ _ _ _ _ _ F w Hw) as (W & L & _ & Wr & R). exists (enc w). split; [exact Wr|].
  split; [rewrite L; apply (fl_size _ _ _ _ _ _ F)|]. split; [exact W|]. unfold ReadsAll. specialize (R []). now rewrite app_nil_r in R.
Qed.
End Facts.
(** the padding reads as an SSID element *)
Lemma padding_ssid {cfg : Cfg} : strict_end = false -> exists raws, Forall fits raws /\ end_visible raws [] /\
  get_first_element SSIDElement (enc_elements raws) = Ok None /\ get_first_element SSIDElement (pad_key_data (enc_elements raws)) = Ok (Some []).
Proof.
  intros SE. exists [mkRaw 48 [1; 0]%N]. split; [repeat constructor; unfold fits; cbn; lia|]. split; [now left|].
  destruct cfg as [[] [] []]; try discriminate SE; split; vm_compute; reflexivity.
Qed.
Lemma kdes_qualify {cfg : Cfg} :
  (lookup_id (et_id GtkKde) /\ key_data_id (et_id GtkKde) /\ RoundTrip GtkKde ok_gtk (fun x => x)) /\
  (lookup_id (et_id MacAddressKde) /\ key_data_id (et_id MacAddressKde) /\ RoundTrip MacAddressKde (byte_array 6) (fun x => x)) /\
  (lookup_id (et_id PmkidKde) /\ key_data_id (et_id PmkidKde) /\ RoundTrip PmkidKde (byte_array 16) (fun x => x)) /\
  (lookup_id (et_id NonceKde) /\ key_data_id (et_id NonceKde) /\ RoundTrip NonceKde (byte_array 32) (fun x => x)).
Proof.
  split; [split; [discriminate|split; [exact I|apply gtk_round_trip]]|].
  split; [split; [discriminate|split; [exact I|eapply fixed_round_trip, (kde_bytes_fixed 3 6); discriminate]]|].
  split; [split; [discriminate|split; [exact I|eapply fixed_round_trip, (kde_bytes_fixed 4 16); discriminate]]|].
  split; [discriminate|split; [exact I|eapply fixed_round_trip, (kde_bytes_fixed 6 32); discriminate]].
Qed.
Lemma handshake_example (cfg : Cfg) :
  let c := chain_of (Typed (elem_of PmkidKde (repeat 7%N 16))) [RawItem (mkRaw 48 [1; 0]%N)] in
  let raws := [mkRaw 221 ([0; 15; 172; 4] ++ repeat 7 16); mkRaw 48 [1; 0]]%N in
  chain_of_elements c raws /\ holds_values PmkidKde (byte_array 16) (chain_items c) [Some (repeat 7%N 16); None] /\
  kck_len Ak_Psk = Some 16 /\ kek_len Ak_Psk = Some 16 /\ tk_len Cs_Ccmp128 = Some 16 /\ key_mic_len Ak_Psk = Some 16 /\
  ok_key_frame (with_data (with_data (test_key_frame (repeat 0%N 16) []) (c_chain c)) (enc_elements raws)).
Proof.
  cbv zeta. assert (B : byte_array 16 (repeat 7%N 16)) by (split; [reflexivity|now apply wf_bytesb_spec]).
  split. { split; [|split; [|split]].
    - constructor; [|constructor; [reflexivity|constructor]]. exists (VendorSpecific [0; 15; 172; 4]%N), (repeat 7%N 16). split; [|reflexivity].
      split; [reflexivity|]. split; [reflexivity|]. apply (fl_write _ _ _ _ _ _ (kde_bytes_fixed 4 16 (Nat.neq_succ_0 15))). exact B.
    - repeat constructor; cbn; lia.
    - repeat constructor; unfold fits; cbn; lia.
    - right. right. discriminate. }
  split. { constructor; [split; [reflexivity|split; [exact B|right; discriminate]]|]. constructor; [|constructor].
    intros raw -> (b & E). discriminate. }
  repeat (split; [reflexivity|]). unfold ok_key_frame, test_key_frame. cbn [with_data key_information key_length key_replay_counter key_nonce key_iv key_rsc key_mic key_data].
  repeat (split; [first [vm_compute; reflexivity|apply wf_bytesb_spec; vm_compute; reflexivity]|]). vm_compute. reflexivity.
Qed.

(** exactly which elements the padding adds *)
Lemma padding_added {cfg : Cfg} raws : Forall fits raws -> end_visible raws [] ->
  raw_elements (pad_key_data (enc_elements raws)) =
    Ok (raws ++ padding_elements ((length (pad_key_data (enc_elements raws)) - length (enc_elements raws) - if strict_end then 1 else 0) / 2)).
Proof.
  intros F V. pose proof (pad_length (enc_elements raws)) as [[L1 L2] _]. revert L1 L2.
  unfold pad_key_data. set (d := _ - length (enc_elements raws)).
  assert (E : length (match d with O => [] | S n => 0xdd%N :: repeat 0%N n end) = d) by (destruct d; cbn [length]; [reflexivity|now rewrite repeat_length]).
  rewrite app_length, E. intros _ L2. replace (length (enc_elements raws) + d - length (enc_elements raws)) with d by lia.
  assert (D : d <= 16) by lia. clearbody d. clear E L2.
  assert (C : d = 0 \/ exists tail, match d with O => [] | S n => 0xdd%N :: repeat 0%N n end =
      enc_elements (padding_elements ((d - if strict_end then 1 else 0) / 2)) ++ tail /\ iteration_end tail /\ (strict_end = false \/ tail <> [])).
  { destruct strict_end eqn:SE;
    do 17 (destruct d as [|d]; [first [left; reflexivity|right; eexists; split; [cbn [Nat.sub Nat.div Nat.divmod fst padding_elements firstn repeat]; 
      first [now instantiate (1 := [])|now instantiate (1 := [221]%N)|now instantiate (1 := [0]%N)|now instantiate (1 := [221; 0]%N)|now instantiate (1 := [0; 0]%N)]|];
      (split; [first [apply iteration_end_nil|left; reflexivity|left; exact I|now left|right; split; [exact SE|eexists; reflexivity]]|first [now left|right; discriminate]])]|]); lia. }
  destruct C as [-> | (tail & E & IE & T)].
  - rewrite !app_nil_r.
    pose proof (raw_elements_enc raws [] F V iteration_end_nil) as E. now rewrite app_nil_r in E.
  - rewrite E, app_assoc, <- enc_elements_app. apply raw_elements_enc; [|destruct T; [now left|right; now left]|exact IE].
    apply Forall_app. split; [exact F|]. unfold padding_elements. apply Forall_forall. intros e I.
    assert (J : In e (mkRaw 221 [] :: repeat (mkRaw 0 []) 7)).
    { rewrite <- (firstn_skipn ((d - (if strict_end then 1 else 0)) / 2)). apply in_or_app. now left. }
    assert (e = mkRaw 221 [] \/ e = mkRaw 0 []) as [-> | ->] by (cbn in J; intuition); unfold fits; cbn; lia.
Qed.
(** when the lookup of an SSID that is not there finds one *)
Lemma padding_ssid_exact {cfg : Cfg} raws : strict_end = false -> Forall fits raws -> Forall (fun raw => re_type raw <> 0%N) raws ->
  get_first_element SSIDElement (enc_elements raws) = Ok None /\
  get_first_element SSIDElement (pad_key_data (enc_elements raws)) =
    Ok (if 4 <=? length (pad_key_data (enc_elements raws)) - length (enc_elements raws) then Some [] else None).
Proof.
  intros SE F NS. assert (V : end_visible raws []) by (now left).
  pose proof (raw_elements_enc raws [] F V iteration_end_nil) as E0. rewrite app_nil_r in E0.
  pose proof (padding_added raws F V) as E. rewrite SE in E.
  assert (NP : Forall (fun e => match_and_parse SSIDElement e = Ok None) raws).
  { eapply Forall_impl; [|exact NS]. intros e H. unfold match_and_parse. destruct (element_id_matches e (et_id SSIDElement)) eqn:M; [|reflexivity].
    exfalso. apply (element_id_matches_spec e (et_id SSIDElement)) in M; [|exact I]. destruct M as (body & ->). apply H. reflexivity. }
  assert (SK : forall (f : RawElement -> Res serr (option bytes)) l ps, Forall (fun e => f e = Ok None) l -> find_map_res f (l ++ ps) = find_map_res f ps).
  { intros f l ps A. induction A as [|e l A _ IH]; [reflexivity|]. cbn [app find_map_res]. rewrite A. exact IH. }
  unfold get_first_element. rewrite E, E0. cbn [rbind]. split.
  - rewrite <- (app_nil_r raws). now rewrite SK by exact NP.
  - rewrite SK by exact NP. clear E E0 SK. pose proof (pad_length (enc_elements raws)) as [[L1 L2] _].
    set (d := length (pad_key_data (enc_elements raws)) - length (enc_elements raws)). assert (D : d <= 16) by (unfold d; lia). clearbody d. clear L1 L2.
    do 17 (destruct d as [|d]; [destruct cfg as [[] [] []]; try discriminate SE; vm_compute; reflexivity|]). lia.
Qed.
