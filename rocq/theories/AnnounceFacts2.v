(** Stations that announce something in an element: an access point with more and more stations. *)
From Verif Require Import Base SpecBase BaseFacts Bits Layouts Enums Common Elements SpecElements ElementsFacts ElementTypes SpecElementTypes ElementTypesFacts
  Mgmt SpecMgmt MgmtFacts Generic SpecGeneric SpecDelivery DeliveryFacts SpecNoise NoiseFacts FcsFacts ScanFacts2 RatesFacts2 SpecAnnounce AnnounceFacts.

Definition load5 : BSSLoad := mkBSSLoad 5 200 300.
Definition load7 : BSSLoad := mkBSSLoad 7 220 100.
Definition load_air (subtype : N) (h : MgmtHeader) (raws : list RawElement) : bytes :=
  enc_frame true (enc_mgmt subtype h (le_bytes 8 1 ++ le_bytes 2 100 ++ le_bytes 2 17 ++ enc_elements raws)).
Definition busy_beacon : bytes := Eval vm_compute in load_air 8 (ex_header (repeat 2%N 6)) [mkRaw 0 [72; 111]; mkRaw 11 [5; 0; 200; 44; 1]]%N.
Definition busier_response : bytes := Eval vm_compute in load_air 5 (ex_header (repeat 2%N 6)) [mkRaw 11 [7; 0; 220; 100; 0]; mkRaw 0 [72; 111]]%N.
Definition other_beacon : bytes := Eval vm_compute in load_air 8 (ex_header (repeat 4%N 6)) [mkRaw 0 [72; 111]]%N.
Definition broken_beacon : bytes := Eval vm_compute in firstn 40 busy_beacon ++ [1]%N ++ skipn 41 busy_beacon.

Section F.
Context {cfg : Cfg}.
Definition load_arms : list (nat * Arm (option (bytes * Res serr (option BSSLoad)))) :=
  [(0, mkArm _ _ (mgmt_kind Beacon) (rd_mgmt Beacon) (hear BSSLoadElement bb_elements)); (1, mkArm _ _ (mgmt_kind ProbeResponse) (rd_mgmt ProbeResponse) (hear BSSLoadElement bb_elements))].
Lemma load_typed : typed_arms load_arms.
Proof. split; [cbn; repeat constructor; cbn; intuition discriminate|]. repeat constructor; eexists; reflexivity. Qed.
Lemma load_ok : ok_bss_load load5 /\ ok_bss_load load7.
Proof. repeat split; cbn; reflexivity. Qed.
Lemma load_item v raw : ok_bss_load v -> raw = mkRaw 11 (enc_bss_load v) -> item_element (Typed (elem_of BSSLoadElement v)) raw.
Proof.
  intros O ->. exists (Id 11), (enc_bss_load v). split; [|reflexivity]. split; [reflexivity|]. destruct (fl_write _ _ _ _ _ _ bss_load_fixed v O) as (_ & L & _ & W & _).
  split; [|exact W]. cbn [elem_of e_measure BSSLoadElement et_measure]. now rewrite L.
Qed.
Lemma other_item : forall raw, item_element (RawItem (mkRaw 0 [72; 111]%N)) raw -> ~ is_element (et_id BSSLoadElement) raw.
Proof. intros raw -> (body & E). discriminate E. Qed.
Lemma busy_said : announces BSSLoadElement ok_bss_load load_arms (repeat 2%N 6) (Some load5) busy_beacon.
Proof.
  set (b := busy_beacon). change b with (firstn (length busy_beacon) (busy_beacon ++ repeat 0%N (120 - length busy_beacon))).
  refine (says_so BSSLoadElement ok_bss_load load_arms (repeat 2%N 6) _ _ Beacon 0 8 ok_beacon fixed_beacon bb_elements with_beacon bb_elements (ex_header (repeat 2%N 6))
    (mkBeacon 1 100 17 (c_chain (chain_of (RawItem (mkRaw 0 [72; 111]%N)) [Typed (elem_of BSSLoadElement load5)]))) (chain_of (RawItem (mkRaw 0 [72; 111]%N)) [Typed (elem_of BSSLoadElement load5)])
    [mkRaw 0 [72; 111]; mkRaw 11 [5; 0; 200; 44; 1]]%N [None; Some load5] (repeat 0%N 120) _ _
    (proj1 frame_kinds) (or_introl eq_refl) (header_ok _ (addr_ok 2 eq_refl)) eq_refl (conj eq_refl (conj eq_refl eq_refl)) eq_refl _ _ _ _ _ _ _ _).
  - constructor; [reflexivity|]. constructor; [apply load_item; [apply load_ok|reflexivity]|constructor].
  - constructor; [reflexivity|]. constructor; [reflexivity|constructor].
  - repeat constructor; unfold fits; cbn; lia.
  - right. right. discriminate.
  - apply wf_bytesb_spec. reflexivity.
  - constructor; [exact other_item|]. constructor; [|constructor]. split; [reflexivity|]. split; [apply load_ok|]. right. discriminate.
  - rewrite repeat_length. unfold slack. destruct strict_end; vm_compute; lia.
  - destruct cfg as [[] [] []]; vm_compute; reflexivity.
Qed.
Lemma busier_said : announces BSSLoadElement ok_bss_load load_arms (repeat 2%N 6) (Some load7) busier_response.
Proof.
  set (b := busier_response). change b with (firstn (length busier_response) (busier_response ++ repeat 0%N (120 - length busier_response))).
  refine (says_so BSSLoadElement ok_bss_load load_arms (repeat 2%N 6) _ _ ProbeResponse 1 5 ok_beacon fixed_beacon bb_elements with_beacon bb_elements (ex_header (repeat 2%N 6))
    (mkBeacon 1 100 17 (c_chain (chain_of (Typed (elem_of BSSLoadElement load7)) [RawItem (mkRaw 0 [72; 111]%N)]))) (chain_of (Typed (elem_of BSSLoadElement load7)) [RawItem (mkRaw 0 [72; 111]%N)])
    [mkRaw 11 [7; 0; 220; 100; 0]; mkRaw 0 [72; 111]]%N [Some load7; None] (repeat 0%N 120) _ _
    (proj1 (proj2 frame_kinds)) (or_intror (or_introl eq_refl)) (header_ok _ (addr_ok 2 eq_refl)) eq_refl (conj eq_refl (conj eq_refl eq_refl)) eq_refl _ _ _ _ _ _ _ _).
  - constructor; [apply load_item; [apply load_ok|reflexivity]|]. constructor; [reflexivity|constructor].
  - constructor; [reflexivity|]. constructor; [reflexivity|constructor].
  - repeat constructor; unfold fits; cbn; lia.
  - right. right. discriminate.
  - apply wf_bytesb_spec. reflexivity.
  - constructor; [|constructor; [exact other_item|constructor]]. split; [reflexivity|]. split; [apply load_ok|]. right. discriminate.
  - rewrite repeat_length. unfold slack. destruct strict_end; vm_compute; lia.
  - destruct cfg as [[] [] []]; vm_compute; reflexivity.
Qed.
Lemma other_said : announces BSSLoadElement ok_bss_load load_arms (repeat 4%N 6) None other_beacon.
Proof.
  set (b := other_beacon). change b with (firstn (length other_beacon) (other_beacon ++ repeat 0%N (120 - length other_beacon))).
  refine (says_so BSSLoadElement ok_bss_load load_arms (repeat 4%N 6) _ _ Beacon 0 8 ok_beacon fixed_beacon bb_elements with_beacon bb_elements (ex_header (repeat 4%N 6))
    (mkBeacon 1 100 17 (c_chain (ChainEnd (RawItem (mkRaw 0 [72; 111]%N))))) (ChainEnd (RawItem (mkRaw 0 [72; 111]%N)))
    [mkRaw 0 [72; 111]]%N [None] (repeat 0%N 120) _ _
    (proj1 frame_kinds) (or_introl eq_refl) (header_ok _ (addr_ok 4 eq_refl)) eq_refl (conj eq_refl (conj eq_refl eq_refl)) eq_refl _ _ _ _ _ _ _ _).
  - constructor; [reflexivity|constructor].
  - constructor; [reflexivity|constructor].
  - repeat constructor; unfold fits; cbn; lia.
  - right. right. discriminate.
  - apply wf_bytesb_spec. reflexivity.
  - constructor; [exact other_item|constructor].
  - rewrite repeat_length. unfold slack. destruct strict_end; vm_compute; lia.
  - destruct cfg as [[] [] []]; vm_compute; reflexivity.
Qed.
Lemma broken_damaged : damaged busy_beacon broken_beacon.
Proof.
  split; [apply wf_bytesb_spec; vm_compute; reflexivity|]. split; [apply wf_bytesb_spec; vm_compute; reflexivity|]. split; [vm_compute; reflexivity|].
  split; [intros Z; apply (f_equal (fun x => nth 40 x 0%N)) in Z; vm_compute in Z; discriminate Z|]. left. exists 320.
  intros i Hi. refine (differsb_spec (seq 320 32) busy_beacon broken_beacon _ _ i _); [vm_compute; reflexivity|vm_compute; reflexivity|]. rewrite in_seq. lia.
Qed.
Lemma ex_air : on_the_air BSSLoadElement ok_bss_load load_arms [busy_beacon; other_beacon; busier_response; broken_beacon]
  [(repeat 2%N 6, Some load5); (repeat 4%N 6, None); (repeat 2%N 6, Some load7)].
Proof.
  apply air_said; [exact busy_said|]. apply air_said; [exact other_said|]. apply air_said; [exact busier_said|].
  apply (air_damaged _ _ _ (repeat 2%N 6) (Some load5) busy_beacon); [exact busy_said|exact broken_damaged|constructor].
Qed.
(** every value can be announced, behind any other elements *)
Theorem can_say {V X} (e : ElementType V X) okv convv l a front v : can_announce e okv convv -> wf_id (et_id e) -> typed_arms l ->
  In (0, mkArm _ _ (mgmt_kind Beacon) (rd_mgmt Beacon) (hear e bb_elements)) l -> address a -> okv v -> 0 < et_measure e v -> length (id_prefix (et_id e)) + et_measure e v <= 255 ->
  Forall (fun r => (re_type r < 256)%N /\ wf_bytes (re_slice r) /\ fits r /\ ~ is_element (et_id e) r) front -> exists f, announces e okv l a (Some v) f.
Proof.
  intros (LI & NP & RT) WI TA I0 A O M1 M2 F. destruct (RT v O) as (body & Wb & Mb & WFb & _).
  set (items := map RawItem front ++ [Typed (elem_of e v)]). set (raws := front ++ [element (et_id e) body]).
  assert (Ec : exists c, chain_items c = items).
  { unfold items. destruct front as [|r front]; cbn [map app]; eexists; apply chain_of_items. }
  destruct Ec as (c & Ec).
  assert (C1 : Forall2 item_element (chain_items c) raws).
  { rewrite Ec. unfold items, raws. apply Forall2_app.
    - clear. induction front; cbn [map]; constructor; [reflexivity|assumption].
    - constructor; [|constructor]. exists (et_id e), body. split; [|reflexivity]. split; [reflexivity|]. split; [exact Mb|exact Wb]. }
  assert (C2 : Forall wf_item (chain_items c)).
  { rewrite Ec. unfold items. apply Forall_app. split; [|constructor; [exact WI|constructor]]. apply Forall_map. eapply Forall_impl; [|exact F]. intros r (T & _). exact T. }
  assert (FB : fits (element (et_id e) body)) by (unfold fits, element; cbn [re_slice]; rewrite app_length; lia).
  assert (C3 : Forall fits raws).
  { unfold raws. apply Forall_app. split; [|constructor; [exact FB|constructor]]. eapply Forall_impl; [|exact F]. intros r (_ & _ & Z & _). exact Z. }
  assert (EV : end_visible raws []).
  { right. right. unfold raws. rewrite rev_app_distr. cbn [rev app]. unfold element. cbn [re_slice]. destruct body; [cbn in Mb; lia|]. destruct (id_prefix (et_id e)); discriminate. }
  assert (WR : Forall (fun r => wf_bytes (enc_element r)) raws).
  { unfold raws. apply Forall_app. split.
    - eapply Forall_impl; [|exact F]. intros r (T & W & Z & _). constructor; [exact T|]. constructor; [unfold fits in Z; lia|exact W].
    - constructor; [|constructor]. unfold enc_element, fits in *. constructor; [unfold element; cbn [re_type]; destruct (et_id e); cbn in *; lia|].
      constructor; [lia|]. unfold element. cbn [re_slice]. apply Forall_app. split; [|exact WFb]. destruct (et_id e); cbn in *; repeat constructor; assumption. }
  assert (We : wf_bytes (enc_elements raws)) by (clear - WR; unfold enc_elements; induction WR; cbn [map concat]; [constructor|apply Forall_app; now split]).
  assert (HV : holds_values e okv (chain_items c) (map (fun _ => None) front ++ [Some v])).
  { rewrite Ec. unfold items, holds_values. apply Forall2_app.
    - clear - F. induction F as [|r front (_ & _ & _ & N) F IH]; cbn [map]; constructor; [intros raw ->; exact N|exact IH].
    - constructor; [|constructor]. split; [reflexivity|]. split; [exact O|]. right. lia. }
  destruct (lookup_written e okv convv c raws _ LI NP RT C1 C2 C3 EV HV) as (Wc & _).
  set (h := ex_header a). set (w := mkBeacon 1 100 17 (c_chain c)). set (es := enc_elements raws) in *.
  set (buf := repeat 0%N (length (enc_frame true (enc_mgmt 8 h (fixed_beacon w ++ es))) + slack)).
  assert (Room : length (enc_frame true (enc_mgmt 8 h (fixed_beacon w ++ es))) + slack <= length buf) by (unfold buf; rewrite repeat_length; constructor).
  destruct (type_delivered _ _ _ _ _ _ _ _ _ _ beacon_type _ l _ h w es true buf TA I0 (header_ok _ A) (conj eq_refl (conj eq_refl eq_refl)) We Wc
    (or_intror (or_intror (chain_bytes c raws C1))) Room) as (buf' & n & Wr & _).
  exists (firstn n buf'). replace (Some v) with (hd_error (somes (map (fun _ : RawElement => @None V) front ++ [Some v]))).
  - exact (says_so e okv l a _ _ Beacon 0 8 ok_beacon fixed_beacon bb_elements with_beacon bb_elements h w c raws _ buf buf' n (proj1 frame_kinds) I0 (header_ok _ A) eq_refl
      (conj eq_refl (conj eq_refl eq_refl)) eq_refl C1 C2 C3 EV We HV Room Wr).
  - clear. induction front as [|r front IH]; cbn [map app somes]; [reflexivity|exact IH].
Qed.
End F.
