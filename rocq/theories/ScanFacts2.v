(** The scan: frames for every network, a scan at work, and where it goes wrong. *)
From Verif Require Import Base SpecBase BaseFacts Enums Common Elements SpecElements ElementsFacts ElementTypes SpecElementTypes ElementTypesFacts Suites Rsn SpecRsn
  RsnFacts RsnFacts2 RsnFacts3 RsnFacts4 RsnFacts6 Mgmt SpecMgmt MgmtFacts Generic SpecGeneric SpecDelivery DeliveryFacts FcsFacts Utf8 Utf8Facts SpecNoise NoiseFacts SpecScan ScanFacts.

Definition ex_header (bssid : bytes) : MgmtHeader := mkMH 0 0 (repeat 255%N 6) bssid bssid 0x1230 None.
Definition home_security : RsnView := mkView (Some Cs_Ccmp128) (Some [Cs_Ccmp128]) (Some [Ak_Psk; Ak_Sae]) None None None.
Definition home_rsn : Rsn := mkRsn (Some Cs_Ccmp128) (Some (Arr [Cs_Ccmp128])) (Some (Arr [Ak_Psk; Ak_Sae])) None None None.
Definition home (channel : N) : Network := mkNetwork (repeat 2%N 6) [72; 111; 109; 101]%N channel (Some home_security).
Definition cafe : Network := mkNetwork (repeat 6%N 6) [67; 97; 102; 195; 169]%N 11 None.
Definition home_layout : list NetItem := [ISsid; IOther (mkRaw 1 [0x82; 0x84]%N); IChannel; ISecurity home_rsn; IOther (mkRaw 61 [1]%N)].
Definition cafe_layout : list NetItem := [IChannel; ISsid; IOther (mkRaw 1 [0x82; 0x84]%N)].
(** an announcement in bytes *)
Definition in_bytes (probed : bool) (nw : Network) (layout : list NetItem) : bytes :=
  enc_frame true (enc_mgmt (if probed then 5 else 8) (ex_header (nw_bssid nw)) (le_bytes 8 1 ++ le_bytes 2 100 ++ le_bytes 2 17 ++ enc_elements (map (raw_item nw) layout))).
Definition home_1 : bytes := Eval vm_compute in in_bytes false (home 1) home_layout.
Definition home_6 : bytes := Eval vm_compute in in_bytes true (home 6) home_layout.
Definition cafe_11 : bytes := Eval vm_compute in in_bytes false cafe cafe_layout.
(** two bytes changed *)
Definition noise : bytes := Eval vm_compute in firstn 20 home_1 ++ [3; 2]%N ++ skipn 22 home_1.

Section F.
Context {cfg : Cfg}.
Definition ex_arms : list (nat * Arm (option (bytes * Entry))) :=
  [(0, mkArm _ _ (mgmt_kind Beacon) (rd_mgmt Beacon) see); (1, mkArm _ _ (mgmt_kind ProbeResponse) (rd_mgmt ProbeResponse) see)].
Lemma ex_scans : scans ex_arms.
Proof.
  split; [|split; [left; reflexivity|right; left; reflexivity]]. split; [cbn; repeat constructor; cbn; intuition discriminate|].
  repeat constructor; eexists; reflexivity.
Qed.
Lemma header_ok b : address b -> ok_mgmt_header (ex_header b).
Proof.
  intros A. assert (B : address (repeat 255%N 6)) by (split; [reflexivity|now apply wf_bytesb_spec]).
  exact (conj eq_refl (conj eq_refl (conj B (conj A (conj A (conj eq_refl eq_refl)))))).
Qed.
(** every network can be announced *)
Lemma can_announce nw layout : ok_network nw -> carried nw -> address (nw_bssid nw) -> layout_of nw layout -> end_visible (map (raw_item nw) layout) [] ->
  exists f, announces nw f.
Proof.
  intros N CA A L EV. destruct layout as [|first rest]; [destruct (proj1 L)|].
  set (c := chain_of (chain_item nw first) (map (chain_item nw) rest)). set (h := ex_header (nw_bssid nw)). set (w := mkBeacon 1 100 17 (c_chain c)).
  set (es := enc_elements (map (raw_item nw) (first :: rest))).
  destruct (told nw (first :: rest) c N CA L (chain_of_items _ _) EV) as (Wc & We & EO & _).
  set (buf := repeat 0%N (length (enc_frame true (enc_mgmt 8 h (fixed_beacon w ++ es))) + slack)).
  pose proof (type_delivered _ _ _ _ _ _ _ _ _ _ beacon_type) as D.
  destruct (D _ ex_arms see h w es true buf (proj1 ex_scans) (or_introl eq_refl) (header_ok _ A) (conj eq_refl (conj eq_refl eq_refl)) We Wc (or_intror EO)) as (buf' & n & E & _).
  { unfold buf. rewrite repeat_length. constructor. }
  exists (firstn n buf'), false, h, 1%N, 100%N, 17%N, (first :: rest), first, rest, buf, buf', n.
  split; [now apply header_ok|]. split; [reflexivity|]. split; [reflexivity|]. split; [reflexivity|]. split; [reflexivity|]. split; [exact L|]. split; [reflexivity|].
  split; [exact EV|]. cbv zeta. fold c w es. split; [|split; [exact E|reflexivity]]. unfold buf. rewrite repeat_length. constructor.
Qed.

(** ** A scan at work *)
Lemma home_ok ch : (ch < 256)%N -> ok_network (home ch) /\ carried (home ch).
Proof.
  intros C. split.
  - split; [split; [now apply wf_bytesb_spec|split; [cbn; lia|now apply Utf8Facts.utf8_spec]]|]. split; [right; discriminate|]. split; [exact C|].
    cbn [home nw_security]. split; [|split; [apply gap_free_eq; reflexivity|split; [vm_compute; lia|right; exact I]]].
    cbn. repeat split; repeat constructor.
  - split; [reflexivity|right; reflexivity].
Qed.
Lemma cafe_ok : ok_network cafe /\ carried cafe.
Proof.
  split; [|exact I]. split; [split; [now apply wf_bytesb_spec|split; [cbn; lia|now apply Utf8Facts.utf8_spec]]|]. split; [right; discriminate|]. split; [reflexivity|exact I].
Qed.
Lemma home_layout_ok ch : layout_of (home ch) home_layout.
Proof.
  split; [now left|]. split; [right; right; now left|]. split; [intros _; exists home_rsn; do 3 right; now left|].
  assert (U : forall t b, (t < 256)%N -> ~ In t [0; 3; 48]%N -> wf_bytesb b = true -> length b <= 255 -> unrelated (mkRaw t b)).
  { intros t b T I W L. split; [exact T|]. split; [exact I|]. split; [now apply wf_bytesb_spec|exact L]. }
  constructor; [exact I|]. constructor; [apply U; cbn; [reflexivity|intuition discriminate|reflexivity|lia]|]. constructor; [exact I|].
  constructor; [exists home_security; split; [reflexivity|]; unfold shows; cbn; auto 10|].
  constructor; [apply U; cbn; [reflexivity|intuition discriminate|reflexivity|lia]|]. constructor.
Qed.
Lemma cafe_layout_ok : layout_of cafe cafe_layout.
Proof.
  split; [right; now left|]. split; [now left|]. split; [intros X; now destruct X|].
  constructor; [exact I|]. constructor; [exact I|]. constructor; [|constructor].
  split; [reflexivity|]. split; [cbn; intuition discriminate|]. split; [now apply wf_bytesb_spec|cbn; lia].
Qed.
Lemma written (probed : bool) nw layout first rest f : address (nw_bssid nw) -> layout_of nw layout -> layout = first :: rest -> end_visible (map (raw_item nw) layout) [] ->
  length (in_bytes probed nw layout) + 1 <= 120 ->
  wr_mgmt (if probed then ProbeResponse else Beacon) (ex_header (nw_bssid nw)) (mkBeacon 1 100 17 (c_chain (chain_of (chain_item nw first) (map (chain_item nw) rest)))) true (repeat 0%N 120)
    = Ok (f ++ repeat 0%N (120 - length f), length f) -> announces nw f.
Proof.
  intros A L E EV Room W.
  exists probed, (ex_header (nw_bssid nw)), 1%N, 100%N, 17%N, layout, first, rest, (repeat 0%N 120), (f ++ repeat 0%N (120 - length f)), (length f).
  split; [now apply header_ok|]. split; [reflexivity|]. split; [reflexivity|]. split; [reflexivity|]. split; [reflexivity|]. split; [exact L|]. split; [exact E|].
  split; [exact EV|]. cbv zeta. split; [|split; [exact W|now rewrite firstn_app_exact]].
  rewrite repeat_length. etransitivity; [|exact Room]. apply Nat.add_le_mono; [reflexivity|]. unfold slack. destruct strict_end; lia.
Qed.
Lemma home_1_sent : announces (home 1) home_1.
Proof.
  apply (written false (home 1) home_layout _ _ home_1 (conj eq_refl (proj1 (wf_bytesb_spec (repeat 2%N 6)) eq_refl)) (home_layout_ok 1) eq_refl); [right; right; discriminate|vm_compute; lia|].
  destruct cfg as [[] [] []]; vm_compute; reflexivity.
Qed.
Lemma home_6_sent : announces (home 6) home_6.
Proof.
  apply (written true (home 6) home_layout _ _ home_6 (conj eq_refl (proj1 (wf_bytesb_spec (repeat 2%N 6)) eq_refl)) (home_layout_ok 6) eq_refl); [right; right; discriminate|vm_compute; lia|].
  destruct cfg as [[] [] []]; vm_compute; reflexivity.
Qed.
Lemma cafe_sent : announces cafe cafe_11.
Proof.
  apply (written false cafe cafe_layout _ _ cafe_11 (conj eq_refl (proj1 (wf_bytesb_spec (repeat 6%N 6)) eq_refl)) cafe_layout_ok eq_refl); [right; right; discriminate|vm_compute; lia|].
  destruct cfg as [[] [] []]; vm_compute; reflexivity.
Qed.
Lemma noise_damaged : damaged home_1 noise.
Proof.
  split; [apply wf_bytesb_spec; vm_compute; reflexivity|]. split; [apply wf_bytesb_spec; vm_compute; reflexivity|]. split; [vm_compute; reflexivity|].
  split; [intros Z; apply (f_equal (fun x => nth 20 x 0%N)) in Z; vm_compute in Z; discriminate Z|]. left. exists 160.
  intros i Hi. refine (differsb_spec (seq 160 32) home_1 noise _ _ i _); [vm_compute; reflexivity|vm_compute; reflexivity|]. rewrite in_seq. lia.
Qed.
Definition ex_air : list bytes := [home_1; noise; cafe_11; home_6; noise; cafe_11].
Lemma ex_heard : heard ex_arms ex_air [home 1; cafe; home 6; cafe].
Proof.
  destruct (home_ok 1 eq_refl) as (N1 & C1). destruct (home_ok 6 eq_refl) as (N6 & C6). destruct cafe_ok as (N & C).
  apply (heard_network _ _ _ _ _ N1 C1 home_1_sent). apply (heard_damaged _ _ _ _ _ _ N1 C1 home_1_sent noise_damaged).
  apply (heard_network _ _ _ _ _ N C cafe_sent). apply (heard_network _ _ _ _ _ N6 C6 home_6_sent).
  apply (heard_damaged _ _ _ _ _ _ N1 C1 home_1_sent noise_damaged). apply (heard_network _ _ _ _ _ N C cafe_sent). constructor.
Qed.
End F.
Lemma ex_table {cfg : Cfg} : exists r, shows r home_security /\
  scan ex_arms ex_air = Ok [(repeat 6%N 6, mkEntry (Some [67; 97; 102; 195; 169]%N) (Some 11%N) None); (repeat 2%N 6, mkEntry (Some [72; 111; 109; 101]%N) (Some 6%N) (Some r))].
Proof. exists (received home_security). split; [apply received_shows|]. destruct cfg as [[] [] []]; vm_compute; reflexivity. Qed.

(** ** Where it goes wrong *)
Definition caps_security : RsnView := mkView (Some Cs_Ccmp128) (Some [Cs_Ccmp128]) (Some [Ak_Sae]) (Some 0x80%N) None None.
Definition caps_rsn : Rsn := mkRsn (Some Cs_Ccmp128) (Some (Arr [Cs_Ccmp128])) (Some (Arr [Ak_Sae])) (Some 0x80%N) None None.
Definition caps_network : Network := mkNetwork (repeat 2%N 6) [72; 111; 109; 101]%N 1 (Some caps_security).
Definition caps_layout : list NetItem := [ISsid; IChannel; ISecurity caps_rsn].
Definition caps_frame : bytes := in_bytes false caps_network caps_layout.
Definition pmkid_network : Network := mkNetwork (repeat 2%N 6) [84; 101; 115; 116]%N 1 (Some (spill_view hiding_pmkid)).
Definition pmkid_layout : list NetItem := [IChannel; ISecurity (spill_rsn hiding_pmkid); ISsid].
Definition pmkid_frame : bytes := Eval vm_compute in
  (fun cfg : Cfg => match wr_mgmt Beacon (ex_header (repeat 2%N 6)) (mkBeacon 1 100 17 (c_chain
    (chain_of (chain_item pmkid_network IChannel) (map (chain_item pmkid_network) [ISecurity (spill_rsn hiding_pmkid); ISsid])))) true (repeat 0%N 120) with
  | Ok (b, n) => firstn n b
  | _ => []
  end) (Build_Cfg false true true).
Lemma caps_misread {cfg : Cfg} : native_le = false -> ok_network caps_network /\ exists f e, announces caps_network f /\ scan ex_arms [f] = Ok [(nw_bssid caps_network, e)] /\
  option_map rsn_caps (en_rsn e) = Some (Some 0x8000%N) /\ ~ tells e caps_network.
Proof.
  intros NL. split.
  { split; [split; [now apply wf_bytesb_spec|split; [cbn; lia|now apply Utf8Facts.utf8_spec]]|]. split; [right; discriminate|]. split; [reflexivity|].
    cbn [caps_network nw_security]. split; [|split; [apply gap_free_eq; reflexivity|split; [vm_compute; lia|right; exact I]]].
    cbn. repeat split; repeat constructor. }
  assert (L : layout_of caps_network caps_layout).
  { split; [now left|]. split; [right; now left|]. split; [intros _; exists caps_rsn; do 2 right; now left|].
    constructor; [exact I|]. constructor; [exact I|]. constructor; [|constructor]. exists caps_security. split; [reflexivity|]. unfold shows. cbn. auto 10. }
  exists caps_frame. eexists. split; [|split; [|split]].
  - apply (written false caps_network caps_layout _ _ _ (conj eq_refl (proj1 (wf_bytesb_spec (repeat 2%N 6)) eq_refl)) L eq_refl); [right; right; discriminate|vm_compute; lia|].
    destruct cfg as [[] [] []]; vm_compute; reflexivity.
  - destruct cfg as [se le oc]. cbn in NL. subst le. instantiate (1 := mkEntry (Some [72; 111; 109; 101]%N) (Some 1%N)
      (Some (mkRsn (Some Cs_Ccmp128) (Some (Iter (enc_cipher Cs_Ccmp128))) (Some (Iter (enc_akm Ak_Sae))) (Some 0x8000%N) None None))).
    destruct se, oc; vm_compute; reflexivity.
  - reflexivity.
  - intros (_ & _ & _ & _ & _ & C & _). discriminate C.
Qed.
Lemma pmkid_hides_network {cfg : Cfg} : ok_network pmkid_network /\ exists f e, announces pmkid_network f /\ scan ex_arms [f] = Ok [(nw_bssid pmkid_network, e)] /\ en_ssid e = None.
Proof.
  assert (O : ok_pmkid hiding_pmkid) by (split; [reflexivity|now apply wf_bytesb_spec]).
  destruct (spill_ok _ O) as (A & B & C & D). split.
  { split; [split; [now apply wf_bytesb_spec|split; [cbn; lia|now apply Utf8Facts.utf8_spec]]|]. split; [right; discriminate|]. split; [reflexivity|].
    cbn [pmkid_network nw_security]. split; [exact B|]. split; [exact C|]. split; [vm_compute; lia|right; exact I]. }
  assert (L : layout_of pmkid_network pmkid_layout).
  { split; [right; right; now left|]. split; [now left|]. split; [intros _; eexists; right; now left|].
    constructor; [exact I|]. constructor; [eexists; split; [reflexivity|exact A]|]. constructor; [exact I|constructor]. }
  exists pmkid_frame. eexists. split; [|split].
  - apply (written false pmkid_network pmkid_layout _ _ _ (conj eq_refl (proj1 (wf_bytesb_spec (repeat 2%N 6)) eq_refl)) L eq_refl); [right; right; discriminate|vm_compute; lia|].
    destruct cfg as [[] [] []]; vm_compute; reflexivity.
  - instantiate (1 := mkEntry None (Some 1%N) _). destruct cfg as [[] [] []]; vm_compute; reflexivity.
  - reflexivity.
Qed.
