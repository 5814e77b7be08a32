(** Proofs about the way of a frame from the sender to the receiver's block. *)
From Verif Require Import Base BaseFacts Bits Layouts BitsFacts Enums EnumsFacts Common SpecBase SpecCommon CommonFacts Crc CrcFacts
  Elements SpecElements ElementsFacts ElementTypes SpecElementTypes ElementTypesFacts StepsFacts Mgmt SpecMgmt MgmtFacts MgmtFacts2 MgmtFacts3 MgmtFacts5
  CryptoHeader Amsdu Data SpecData DataFacts DataFacts2 Control Generic SpecGeneric GenericFacts GenericFacts2 ViewFacts SpecPortable RelayFacts SpecDelivery.

Section Facts.
Context {cfg : Cfg}.

Lemma enc_mgmt_wf s h body : (s < 16)%N -> ok_mgmt_header h -> wf_bytes body -> wf_bytes (enc_mgmt s h body).
Proof.
  intros S H B. unfold enc_mgmt, enc_fcf. destruct H as (HF & HD & (_ & W1) & (_ & W2) & (_ & W3) & HS & HT).
  apply wf_bytes_app. split; [repeat constructor; [unfold u8 in *; lia|exact HF]|]. apply wf_bytes_app. split; [|exact B].
  unfold enc_mgmt_header. repeat (apply wf_bytes_app; split); auto using le_bytes_wf.
  destruct (mh_ht h); [apply HT|constructor].
Qed.
Lemma written_at w frame (buf : bytes) : Writes w frame -> length frame + slack <= length buf ->
  exists buf' n, w buf = Ok (buf', n) /\ firstn n buf' = frame.
Proof.
  intros W L. do 2 eexists. split; [apply (writes_ok _ _ W); exact L|]. now apply firstn_app_exact.
Qed.
Lemma match_enc {A} fcs g (arms : list (Arm A)) : wf_bytes g -> 10 <= length g ->
  match_frames (enc_frame fcs g) (if fcs then Some true else None) arms = try_arms arms g.
Proof.
  intros W L. unfold match_frames. pose proof (gf_new_enc fcs g W L) as E. now destruct fcs; rewrite E.
Qed.
Lemma delivered {W R} (t : BodyType W R) i P subtype (ok : W -> Prop) fixed cont conv empty_ok : (subtype < 16)%N ->
  MgmtRoundTrip t subtype ok fixed cont conv empty_ok -> nth_error kinds i = Some (mgmt_kind t, P) ->
  (forall w, ok w -> wf_bytes (fixed w)) ->
  (forall h w es, ok_mgmt_header h -> ok w -> P (enc_mgmt subtype h (fixed w ++ es))) ->
  Delivered t i subtype ok fixed cont conv empty_ok.
Proof.
  intros S RT K WF HP A l block h w es fcs buf TA I Hh Hw We Wc EO L.
  destruct (RT h w es fcs Hh Hw We Wc) as (Wr & _ & _). destruct (RT h w es false Hh Hw We Wc) as (_ & _ & Rd).
  destruct (written_at _ _ _ Wr L) as (buf' & n & E & F). exists buf', n. split; [exact E|]. rewrite F.
  set (g := enc_mgmt subtype h (fixed w ++ es)) in *.
  assert (Wg : wf_bytes g) by (apply enc_mgmt_wf; [exact S|exact Hh|apply wf_bytes_app; auto]).
  assert (Lg : 10 <= length g) by (unfold g; rewrite enc_mgmt_length by exact Hh; unfold mh_length; destruct (mh_ht h); lia).
  rewrite match_enc by assumption. destruct (dispatch l g TA Wg Lg) as [D _].
  rewrite (D i _ P I K (HP h w es Hh Hw)). change (enc_frame false g) with g in Rd.
  change ((x <- pread (rd_mgmt t false) g 0 ;; Ok (block x)) = Ok (block (h, conv w es)) :> Res serr A). rewrite (Rd EO). reflexivity.
Qed.
Lemma action_prefix prefix h b : prefix <> [] -> ok_mgmt_header h -> (exists more, b = prefix ++ more) -> is_action prefix (enc_mgmt 13 h b).
Proof.
  intros N Hh (more & ->). destruct (written_recognised 13 h (prefix ++ more) eq_refl Hh) as [I B].
  split; [exact I|]. rewrite B. split; [|eauto]. intros Z. apply app_eq_nil in Z. tauto.
Qed.
Lemma mgmt_is s h b : (s < 16)%N -> ok_mgmt_header h -> is_mgmt s (enc_mgmt s h b).
Proof. intros S Hh. now apply written_recognised. Qed.

Ltac dl rt := eapply delivered; [reflexivity|exact rt|reflexivity| |].
Ltac wfx := repeat (apply wf_bytes_app; split); auto using le_bytes_wf; try (constructor; fail).
Lemma all_delivered :
  Delivered Beacon 0 8 ok_beacon fixed_beacon bb_elements with_beacon False /\
  Delivered ProbeResponse 1 5 ok_beacon fixed_beacon bb_elements with_beacon False /\
  Delivered ProbeRequest 2 4 ok_any fixed_probe pq_elements with_probe False /\
  Delivered Authentication 3 11 ok_auth fixed_auth au_elements with_auth False /\
  Delivered AssociationRequest 4 0 ok_assoc_req fixed_assoc_req aq_elements with_assoc_req False /\
  Delivered AssociationResponse 5 1 ok_assoc_resp fixed_assoc_resp ar_elements with_assoc_resp False /\
  Delivered Deauthentication 6 12 ok_reason fixed_reason rb_elements with_reason False /\
  Delivered Disassociation 7 10 ok_reason fixed_reason rb_elements with_reason False /\
  Delivered RawVendorSpecificAction 8 13 ok_vendor fixed_vendor va_payload with_vendor True /\
  Delivered MeshPeeringOpen 9 13 ok_open fixed_open mo_elements with_open False /\
  Delivered MeshPeeringConfirm 10 13 ok_confirm fixed_confirm mc_elements with_confirm False /\
  Delivered MeshPeeringClose 11 13 ok_any fixed_close ml_elements with_close False.
Proof.
  assert (K : forall a, (a < 256)%N -> wf_bytes [a]) by (intros; repeat constructor; assumption).
  assert (K2 : forall a b, (a < 256)%N -> (b < 256)%N -> wf_bytes [a; b]) by (intros; repeat constructor; assumption).
  split; [dl beacon_rt; [intros; unfold fixed_beacon; wfx|intros; now apply mgmt_is]|].
  split; [dl probe_resp_rt; [intros; unfold fixed_beacon; wfx|intros; now apply mgmt_is]|].
  split; [dl probe_rt; [intros; constructor|intros; now apply mgmt_is]|].
  split; [dl auth_rt; [intros; unfold fixed_auth; wfx|intros; now apply mgmt_is]|].
  split; [dl assoc_req_rt; [intros; unfold fixed_assoc_req; wfx|intros; now apply mgmt_is]|].
  split; [dl assoc_resp_rt; [intros; unfold fixed_assoc_resp; wfx|intros; now apply mgmt_is]|].
  split; [dl deauth_rt; [intros; unfold fixed_reason; wfx|intros; now apply mgmt_is]|].
  split; [dl disassoc_rt; [intros; unfold fixed_reason; wfx|intros; now apply mgmt_is]|].
  split. { dl vendor_rt; [intros w [_ Ww]; unfold fixed_vendor; constructor; [reflexivity|exact Ww]|].
    intros h w es Hh Hw. apply action_prefix; [discriminate|exact Hh|]. unfold fixed_vendor. cbn [app]. eexists. reflexivity. }
  split. { dl open_rt; [intros; unfold fixed_open; wfx; now apply K2|].
    intros h w es Hh Hw. apply action_prefix; [discriminate|exact Hh|]. unfold fixed_open. rewrite <- app_assoc. eexists. reflexivity. }
  split. { dl confirm_rt; [intros; unfold fixed_confirm; wfx; now apply K2|].
    intros h w es Hh Hw. apply action_prefix; [discriminate|exact Hh|]. unfold fixed_confirm. rewrite <- app_assoc. eexists. reflexivity. }
  dl close_rt; [intros; unfold fixed_close; now apply K2|].
  intros h w es Hh Hw. apply action_prefix; [discriminate|exact Hh|]. unfold fixed_close. eexists. reflexivity.
Qed.
Lemma data_delivered : DeliveredData.
Proof.
  intros A l block h p body fcs buf TA I Hh PO L.
  destruct (data_round_trip h p body fcs Hh PO) as (Wr & _ & _). destruct (data_round_trip h p body false Hh PO) as (_ & _ & Rd).
  destruct (written_at _ _ _ Wr L) as (buf' & n & E & F). exists buf', n. split; [exact E|]. rewrite F.
  assert (Wb : wf_bytes body) by (destruct p; cbn [payload_ok] in PO; [tauto|destruct PO as [_ ->]; constructor]).
  set (g := enc_data h body) in *.
  assert (Wg : wf_bytes g) by now apply enc_data_wf.
  assert (Lg : 10 <= length g) by (unfold g; rewrite enc_data_length by exact Hh; unfold dh_length; lia).
  rewrite match_enc by assumption. destruct (dispatch l g TA Wg Lg) as [D _].
  rewrite (D 12 _ (is_type 2) I eq_refl).
  - change (enc_frame false g) with g in Rd.
    change ((x <- pread (rd_data false) g 0 ;; Ok (block x)) = Ok (block (if native_le then h else swapped_header h, match p with Some _ => Some body | None => None end)) :> Res serr A).
    destruct (native_le) eqn:NL.
    + rewrite (Rd eq_refl). reflexivity.
    + pose proof (data_read_big h p body false NL Hh PO) as Rb. change (enc_frame false (enc_data h body)) with g in Rb. rewrite Rb. reflexivity.
  - unfold is_type, frame_type_bits, byte, g, enc_data, enc_fcf. cbn [app nth]. destruct Hh as ((_ & C) & _). unfold subtype_number.
    lia.
Qed.

(** the elements of a beacon *)
Lemma beacon_elements_delivered {V Q} (t : ElementType V Q) (okv : V -> Prop) (cv : V -> Q) A (l : list (nat * Arm A)) block
    h (w : BeaconLikeBody Container) c raws os fcs buf :
  lookup_id (et_id t) -> NoPanic (et_read t) -> RoundTrip t okv cv ->
  chain_of_elements c raws -> wf_bytes (enc_elements raws) -> holds_values t okv (chain_items c) os ->
  typed_arms l -> In (0, mkArm _ _ (mgmt_kind Beacon) (rd_mgmt Beacon) block) l ->
  ok_mgmt_header h -> ok_beacon w -> bb_elements w = c_chain c ->
  length (enc_frame fcs (enc_mgmt 8 h (fixed_beacon w ++ enc_elements raws))) + slack <= length buf ->
  exists buf' n, wr_mgmt Beacon h w fcs buf = Ok (buf', n) /\
    match_frames (firstn n buf') (if fcs then Some true else None) (map snd l) = Ok (block (h, with_beacon w (enc_elements raws))) /\
    get_matching_elements t (bb_elements (with_beacon w (enc_elements raws))) = Ok (map cv (somes os)) /\
    get_first_element t (bb_elements (with_beacon w (enc_elements raws))) = Ok (option_map cv (hd_error (somes os))).
Proof.
  intros LI NP RT (C1 & C2 & C3 & C4) Wr HV TA I Hh Hw Ec L.
  destruct (lookup_written t okv cv c raws os LI NP RT C1 C2 C3 C4 HV) as (Wc & G1 & G2).
  destruct all_delivered as (D & _). destruct (D A l block h w (enc_elements raws) fcs buf TA I Hh Hw Wr) as (buf' & n & E & M).
  - rewrite Ec. exact Wc.
  - right. right. destruct c; cbn [chain_items] in C1; inversion C1; subst; cbn; discriminate.
  - exact L.
  - exists buf', n. cbn [with_beacon bb_elements]. auto.
Qed.
End Facts.
