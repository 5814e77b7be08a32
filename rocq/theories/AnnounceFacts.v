(** Proofs about stations that announce something in an element. *)
From Verif Require Import Base SpecBase BaseFacts Bits Layouts Enums Common Elements SpecElements ElementsFacts ElementTypes SpecElementTypes Suites Rsn SpecRsn RsnFacts RsnFacts2 RsnFacts3 RsnFacts4 ElementTypesFacts ElementTypesFacts2
  ElementTypesFacts3 Mgmt SpecMgmt MgmtFacts Generic SpecGeneric SpecDelivery DeliveryFacts SpecNoise NoiseFacts FcsFacts HandshakeFacts SpecScan ScanFacts ScanFacts2 SpecAnnounce.

Lemma latest_map {A B} (f : A -> B) a l : latest a (map (fun p => (fst p, f (snd p))) l) = option_map f (latest a l).
Proof.
  induction l as [|(b, x) l IH]; cbn [map latest fst snd option_map]; [reflexivity|]. rewrite IH. destruct (latest a l) as [y|]; cbn [option_map]; [reflexivity|].
  destruct (list_eq_dec N.eq_dec b a); reflexivity.
Qed.
Section F.
Context {cfg : Cfg}.
Lemma chain_bytes c raws : Forall2 item_element (chain_items c) raws -> enc_elements raws <> [].
Proof.
  intros I E. assert (N : chain_items c <> []) by (destruct c; discriminate). inversion I as [X|x r items rs Hx HI X Y]; [congruence|]. subst raws. discriminate E.
Qed.
Section Type_.
Context {V X : Type} (e : ElementType V X) (okv : V -> Prop) (convv : V -> X).
Lemma announced l a v f : can_announce e okv convv -> announces e okv l a v f -> sent l f (Some (a, Ok (option_map convv v))).
Proof.
  intros (LI & NP & RT) [W R t i subtype ok fixed cont conv view h w c raws vs buf buf' n (T & Vw) I Hh Ha Hw Hc C1 C2 C3 EV We HV Room Wr].
  destruct (lookup_written e okv convv c raws vs LI NP RT C1 C2 C3 EV HV) as (Wc & _ & G).
  assert (Z : hear e view (h, conv w (enc_elements raws)) = Some (a, Ok (option_map convv (hd_error (somes vs))))).
  { unfold hear. cbn [fst snd]. rewrite Vw, G, Ha. reflexivity. }
  rewrite <- Z. refine (sent_mgmt l W R t i subtype ok fixed cont conv False (hear e view) h w (enc_elements raws) buf buf' n T I Hh Hw We _ _ Room Wr).
  - rewrite Hc. exact Wc.
  - right. right. exact (chain_bytes c raws C1).
Qed.
Lemma air_channel l air said : can_announce e okv convv -> on_the_air e okv l air said ->
  exists due, channel l air due /\ somes due = map (fun p => (fst p, Ok (option_map convv (snd p)))) said.
Proof.
  intros S H. induction H as [|a v f air said A H (due & C & M)|f air said A H (due & C & M)|a v f b air said A D H (due & C & M)|f b air said A D H (due & C & M)].
  - exists []. split; [constructor|reflexivity].
  - exists (Some (a, Ok (option_map convv v)) :: due). split; [constructor; [now apply announced|exact C]|]. cbn [somes map fst snd]. now rewrite M.
  - exists (None :: due). split; [now constructor|exact M].
  - exists due. split; [|exact M]. exact (channel_damaged l f _ b air due (announced l a v f S A) D C).
  - exists due. split; [|exact M]. exact (channel_damaged l f _ b air due A D C).
Qed.
Theorem remembered l air said a : can_announce e okv convv -> typed_arms l -> on_the_air e okv l air said ->
  remembers l air a = Ok (option_map (fun v => Ok (option_map convv v)) (latest a said)).
Proof.
  intros S TA H. destruct (air_channel l air said S H) as (due & C & M). unfold remembers. rewrite (through_noise _ l air due TA C). cbn [rbind]. rewrite M.
  f_equal. exact (latest_map (fun v => Ok (option_map convv v)) a said).
Qed.
End Type_.
Lemma frame_kinds :
  with_elements Beacon 0 8 ok_beacon fixed_beacon bb_elements with_beacon bb_elements /\
  with_elements ProbeResponse 1 5 ok_beacon fixed_beacon bb_elements with_beacon bb_elements /\
  with_elements ProbeRequest 2 4 ok_any fixed_probe pq_elements with_probe pq_elements /\
  with_elements Authentication 3 11 ok_auth fixed_auth au_elements with_auth au_elements /\
  with_elements AssociationRequest 4 0 ok_assoc_req fixed_assoc_req aq_elements with_assoc_req aq_elements /\
  with_elements AssociationResponse 5 1 ok_assoc_resp fixed_assoc_resp ar_elements with_assoc_resp ar_elements /\
  with_elements Deauthentication 6 12 ok_reason fixed_reason rb_elements with_reason rb_elements /\
  with_elements Disassociation 7 10 ok_reason fixed_reason rb_elements with_reason rb_elements /\
  with_elements MeshPeeringOpen 9 13 ok_open fixed_open mo_elements with_open mo_elements /\
  with_elements MeshPeeringConfirm 10 13 ok_confirm fixed_confirm mc_elements with_confirm mc_elements /\
  with_elements MeshPeeringClose 11 13 ok_any fixed_close ml_elements with_close ml_elements.
Proof. repeat (split; [split; [constructor|reflexivity]|]). split; [constructor|reflexivity]. Qed.
Lemma fixed_can {A} (t : ElementType A A) id size ok canon enc : lookup_id id -> FixedLayout t id size ok canon enc -> can_announce t ok (fun x => x).
Proof. intros L F. split; [rewrite (fl_id _ _ _ _ _ _ F); exact L|]. split; [exact (fl_no_panic _ _ _ _ _ _ F)|exact (fixed_round_trip t id size ok canon enc F)]. Qed.
Lemma types_announced :
  can_announce SSIDElement ok_ssid (fun x => x) /\ can_announce MeshIDElement ok_ssid (fun x => x) /\
  can_announce SupportedRatesElement (ok_rates 8) (fun x => x) /\ can_announce ExtendedSupportedRatesElement (ok_rates 255) (fun x => x) /\
  can_announce DSSSParameterSetElement u8 (fun x => x) /\ can_announce IBSSParameterSetElement u16 (fun x => x) /\ can_announce BSSLoadElement ok_bss_load (fun x => x) /\
  can_announce HTCapabilitiesElement ok_ht_cap (fun x => x) /\ can_announce VHTCapabilitiesElement ok_vht_cap (fun x => x) /\
  can_announce VHTOperationElement ok_vht_op (fun x => x) /\ can_announce MeshConfigurationElement ok_mesh_conf (fun x => x) /\
  can_announce OWETransitionModeElement owe_ok (fun x => x) /\
  (forall v, ok_security v -> pmkid_count v = 0 -> caps_readable v -> can_announce RsnElement (fun x => shows x v) (fun _ => received v)).
Proof.
  split; [split; [exact I|split; [exact rd_ssid_NP|apply ssid_round_trip; now left]]|].
  split; [split; [exact I|split; [exact rd_ssid_NP|apply ssid_round_trip; now right]]|].
  split; [split; [exact I|split; [exact rd_supported_rates_NP|exact supported_rates_round_trip]]|].
  split; [split; [exact I|split; [exact rd_extended_rates_NP|exact extended_rates_round_trip]]|].
  split; [refine (fixed_can _ _ _ _ _ _ _ dsss_fixed); exact I|]. split; [refine (fixed_can _ _ _ _ _ _ _ ibss_fixed); exact I|]. split; [refine (fixed_can _ _ _ _ _ _ _ bss_load_fixed); exact I|].
  split; [refine (fixed_can _ _ _ _ _ _ _ ht_cap_fixed); exact I|]. split; [refine (fixed_can _ _ _ _ _ _ _ vht_cap_fixed); exact I|].
  split; [refine (fixed_can _ _ _ _ _ _ _ vht_op_fixed); exact I|]. split; [refine (fixed_can _ _ _ _ _ _ _ mesh_conf_fixed); exact I|].
  split; [split; [discriminate|split; [exact rd_owe_NP|exact owe_round_trip]]|].
  intros v A B C. split; [exact I|]. split; [exact rd_rsn_NP|now apply rsn_once].
Qed.
End F.
