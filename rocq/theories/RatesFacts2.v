(** Stations that tell each other their rates: frames for every list, and an exchange. *)
From Verif Require Import Base SpecBase BaseFacts Bits Layouts Enums Common Elements SpecElements ElementsFacts ElementTypes SpecElementTypes ElementTypesFacts ElementTypesFacts2
  Mgmt SpecMgmt MgmtFacts Generic SpecGeneric SpecDelivery DeliveryFacts SpecNoise NoiseFacts FcsFacts ScanFacts2 SpecRates RatesFacts.

Definition ap_rates : list N := [0x82; 0x84; 0x8b; 0x96; 0x0c; 0x12; 0x18; 0x24; 0x30; 0x48; 0x60; 0x6c]%N.
Definition sta_rates : list N := [0x02; 0x04; 0x0b; 0x16; 0x30; 0x48; 0x7f]%N.
Definition ap_layout : list RateItem := [ROther (mkRaw 0 [72; 111]%N); RMore; ROther (mkRaw 3 [6]%N); RFirst].
Definition sta_layout : list RateItem := [RFirst; ROther (mkRaw 0 [72; 111]%N)].
Definition ex_rates_of (a : bytes) : list N := if list_eq_dec N.eq_dec a (repeat 2%N 6) then ap_rates else sta_rates.
Definition ap_beacon : bytes := Eval vm_compute in
  enc_frame true (enc_mgmt 8 (ex_header (repeat 2%N 6)) (le_bytes 8 1 ++ le_bytes 2 100 ++ le_bytes 2 17 ++ enc_elements (map (raw_rates ap_rates) ap_layout))).
Definition sta_request : bytes := Eval vm_compute in
  enc_frame true (enc_mgmt 0 (ex_header (repeat 4%N 6)) (le_bytes 2 17 ++ le_bytes 2 3 ++ enc_elements (map (raw_rates sta_rates) sta_layout))).
Definition bad_beacon : bytes := Eval vm_compute in firstn 60 ap_beacon ++ [3; 2]%N ++ skipn 62 ap_beacon.

Section F.
Context {cfg : Cfg}.
Definition rate_arms : list (nat * Arm (option (bytes * list N))) :=
  [(0, mkArm _ _ (mgmt_kind Beacon) (rd_mgmt Beacon) from_beacon); (4, mkArm _ _ (mgmt_kind AssociationRequest) (rd_mgmt AssociationRequest) from_request)].
Lemma rate_listens : listens rate_arms.
Proof.
  split; [|split; [left; reflexivity|right; left; reflexivity]]. split; [cbn; repeat constructor; cbn; intuition discriminate|].
  repeat constructor; eexists; reflexivity.
Qed.
Lemma item_exists rates i : ok_rate_list rates -> exists x, rate_item rates i = Some x.
Proof.
  intros (W & L). destruct i as [| |e]; cbn [rate_item].
  - unfold supported_rates_new. rewrite (proj2 (Nat.leb_le _ _) (firstn_le_length 8 rates)). eexists. reflexivity.
  - unfold extended_supported_rates_new. rewrite skipn_length, (proj2 (Nat.leb_le _ _)) by lia. eexists. reflexivity.
  - eexists. reflexivity.
Qed.
Lemma items_exist rates layout : ok_rate_list rates -> exists items, map Some items = map (rate_item rates) layout.
Proof.
  intros O. induction layout as [|i layout (items & E)]; [exists []; reflexivity|]. destruct (item_exists rates i O) as (x & X). exists (x :: items). cbn [map]. congruence.
Qed.
(** every list can be told, in every layout, in both kinds of frames *)
Theorem can_say a rates layout : address a -> ok_rate_list rates -> rate_layout rates layout -> end_visible (map (raw_rates rates) layout) [] -> exists f, says a rates f.
Proof.
  intros A O L EV. destruct (items_exist rates layout O) as (items & E). destruct items as [|x items]; [destruct layout; [destruct (proj1 L)|discriminate E]|].
  set (c := chain_of x items). assert (Ec : map Some (chain_items c) = map (rate_item rates) layout) by (unfold c; rewrite chain_of_items; exact E).
  destruct (rates_told rates layout c O L Ec EV) as (Wc & We & EO & _). set (es := enc_elements (map (raw_rates rates) layout)) in *.
  set (h := ex_header a). set (w := mkBeacon 1 100 17 (c_chain c)).
  set (buf := repeat 0%N (length (enc_frame true (enc_mgmt 8 h (fixed_beacon w ++ es))) + slack)).
  pose proof (type_delivered _ _ _ _ _ _ _ _ _ _ beacon_type) as D.
  destruct (D _ rate_arms from_beacon h w es true buf (proj1 rate_listens) (or_introl eq_refl) (header_ok _ A) (conj eq_refl (conj eq_refl eq_refl)) We Wc (or_intror EO)) as (buf' & n & X & _).
  { unfold buf. rewrite repeat_length. constructor. }
  exists (firstn n buf'). refine (says_beacon a rates h 1 100 17 layout c buf buf' n (header_ok _ A) eq_refl eq_refl eq_refl eq_refl L Ec EV _ X).
  unfold buf. rewrite repeat_length. constructor.
Qed.
Lemma other_ok t b : (t < 256)%N -> ~ In t [1; 50]%N -> wf_bytesb b = true -> length b <= 255 -> no_rates (mkRaw t b).
Proof. intros T I W L. split; [exact T|]. split; [exact I|]. split; [now apply wf_bytesb_spec|exact L]. Qed.
Lemma ap_ok : ok_rate_list ap_rates /\ rate_layout ap_rates ap_layout.
Proof.
  split; [split; [now apply wf_bytesb_spec|cbn; lia]|]. split; [do 3 right; now left|]. split; [split; intros _; [cbn; lia|right; now left]|].
  constructor; [apply other_ok; cbn; [reflexivity|intuition discriminate|reflexivity|lia]|]. constructor; [exact I|].
  constructor; [apply other_ok; cbn; [reflexivity|intuition discriminate|reflexivity|lia]|]. constructor; [exact I|]. constructor.
Qed.
Lemma sta_ok : ok_rate_list sta_rates /\ rate_layout sta_rates sta_layout.
Proof.
  split; [split; [now apply wf_bytesb_spec|cbn; lia]|]. split; [now left|]. split; [split; [intros [X|[X|[]]]; discriminate X|cbn; lia]|].
  constructor; [exact I|]. constructor; [apply other_ok; cbn; [reflexivity|intuition discriminate|reflexivity|lia]|]. constructor.
Qed.
Lemma addr_ok n : (n < 256)%N -> address (repeat n 6).
Proof. intros B. split; [reflexivity|]. cbn. repeat constructor; exact B. Qed.
Lemma ap_said : says (repeat 2%N 6) (ex_rates_of (repeat 2%N 6)) ap_beacon.
Proof.
  destruct ap_ok as (O & L). set (b := ap_beacon).
  change b with (firstn (length ap_beacon) (ap_beacon ++ repeat 0%N (120 - length ap_beacon))). change (ex_rates_of (repeat 2%N 6)) with ap_rates.
  refine (says_beacon (repeat 2%N 6) ap_rates (ex_header (repeat 2%N 6)) 1 100 17 ap_layout
    (chain_of (RawItem (mkRaw 0 [72; 111]%N)) [Typed (elem_of ExtendedSupportedRatesElement (skipn 8 ap_rates)); RawItem (mkRaw 3 [6]%N); Typed (elem_of SupportedRatesElement (firstn 8 ap_rates))])
    (repeat 0%N 120) _ _ (header_ok _ (addr_ok 2 eq_refl)) eq_refl eq_refl eq_refl eq_refl L eq_refl _ _ _).
  - right. right. discriminate.
  - rewrite repeat_length. unfold slack. destruct strict_end; vm_compute; lia.
  - destruct cfg as [[] [] []]; vm_compute; reflexivity.
Qed.
Lemma sta_said : says (repeat 4%N 6) (ex_rates_of (repeat 4%N 6)) sta_request.
Proof.
  destruct sta_ok as (O & L). set (b := sta_request).
  change b with (firstn (length sta_request) (sta_request ++ repeat 0%N (120 - length sta_request))). change (ex_rates_of (repeat 4%N 6)) with sta_rates.
  refine (says_request (repeat 4%N 6) sta_rates (ex_header (repeat 4%N 6)) 17 3 sta_layout
    (chain_of (Typed (elem_of SupportedRatesElement (firstn 8 sta_rates))) [RawItem (mkRaw 0 [72; 111]%N)])
    (repeat 0%N 120) _ _ (header_ok _ (addr_ok 4 eq_refl)) eq_refl eq_refl eq_refl L eq_refl _ _ _).
  - right. right. discriminate.
  - rewrite repeat_length. unfold slack. destruct strict_end; vm_compute; lia.
  - destruct cfg as [[] [] []]; vm_compute; reflexivity.
Qed.
Lemma bad_damaged : damaged ap_beacon bad_beacon.
Proof.
  split; [apply wf_bytesb_spec; vm_compute; reflexivity|]. split; [apply wf_bytesb_spec; vm_compute; reflexivity|]. split; [vm_compute; reflexivity|].
  split; [intros Z; apply (f_equal (fun x => nth 60 x 0%N)) in Z; vm_compute in Z; discriminate Z|]. left. exists 480.
  intros i Hi. refine (differsb_spec (seq 480 32) ap_beacon bad_beacon _ _ i _); [vm_compute; reflexivity|vm_compute; reflexivity|]. rewrite in_seq. lia.
Qed.
(** the station hears a damaged beacon and a good one, the access point two requests *)
Lemma ex_talk : ok_rate_list (ex_rates_of (repeat 4%N 6)) /\ ok_rate_list (ex_rates_of (repeat 2%N 6)) /\ listens rate_arms /\
  talk ex_rates_of rate_arms [bad_beacon; ap_beacon] [repeat 2%N 6] /\ talk ex_rates_of rate_arms [sta_request; sta_request] [repeat 4%N 6; repeat 4%N 6].
Proof.
  destruct ap_ok as (O & _). destruct sta_ok as (O' & _). split; [exact O'|]. split; [exact O|]. split; [exact rate_listens|]. split.
  - apply (talk_damaged _ _ (repeat 2%N 6) ap_beacon _ _ _ O ap_said bad_damaged). apply (talk_said _ _ (repeat 2%N 6) ap_beacon _ _ O ap_said). constructor.
  - apply (talk_said _ _ (repeat 4%N 6) sta_request _ _ O' sta_said). apply (talk_said _ _ (repeat 4%N 6) sta_request _ _ O' sta_said). constructor.
Qed.
End F.
Lemma ex_known {cfg : Cfg} : knows rate_arms [bad_beacon; ap_beacon] (repeat 2%N 6) = Ok (Some ap_rates) /\
  common sta_rates ap_rates = [1000; 2000; 5500; 11000; 24000; 36000]%N /\ joins sta_rates ap_rates = true /\ joins [0x30; 0x48]%N ap_rates = false.
Proof. split; [destruct cfg as [[] [] []]; vm_compute; reflexivity|]. split; [|split]; vm_compute; reflexivity. Qed.
