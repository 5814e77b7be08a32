(** Proofs about stations that tell each other their rates. *)
From Verif Require Import Base SpecBase BaseFacts Bits Layouts Enums Common Elements SpecElements ElementsFacts ElementTypes SpecElementTypes ElementTypesFacts ElementTypesFacts2
  Mgmt SpecMgmt MgmtFacts Generic SpecGeneric SpecDelivery DeliveryFacts SpecNoise NoiseFacts FcsFacts ScanFacts2 SpecRates.

Section F.
Context {cfg : Cfg}.
Definition good (i : RateItem) : Prop := match i with ROther e => no_rates e | _ => True end.
Lemma item_made rates i x : ok_rate_list rates -> good i -> (i = RMore -> 8 < length rates) -> rate_item rates i = Some x ->
  item_element x (raw_rates rates i) /\ wf_item x /\ fits (raw_rates rates i) /\ wf_bytes (enc_element (raw_rates rates i)).
Proof.
  intros (W & L) G M E.
  assert (B : forall t b, (t < 256)%N -> wf_bytes b -> length b <= 255 -> fits (mkRaw t b) /\ wf_bytes (enc_element (mkRaw t b))).
  { intros t b T Wb Lb. split; [exact Lb|]. constructor; [exact T|]. constructor; [cbn [re_slice]; lia|exact Wb]. }
  assert (W8 : wf_bytes (firstn 8 rates)) by now apply wf_firstn. assert (WS : wf_bytes (skipn 8 rates)) by now apply wf_skipn.
  destruct i as [| |e]; cbn [rate_item raw_rates] in *.
  - unfold supported_rates_new in E. rewrite (proj2 (Nat.leb_le _ _) (firstn_le_length 8 rates)) in E. cbn [option_map] in E. injection E as <-.
    split; [|split; [reflexivity|apply B; [reflexivity|exact W8|pose proof (firstn_le_length 8 rates); lia]]].
    exists (Id 1), (firstn 8 rates). split; [|reflexivity]. split; [reflexivity|]. split; [reflexivity|].
    change (Writes (wr_supported_rates (firstn 8 rates)) (firstn 8 rates)). unfold wr_supported_rates. rewrite firstn_firstn. now apply wr_rates_W.
  - unfold extended_supported_rates_new in E. destruct (Nat.leb_spec (length (skipn 8 rates)) 251) as [L2|]; [|discriminate E]. cbn [option_map] in E. injection E as <-.
    split; [|split; [reflexivity|apply B; [reflexivity|exact WS|lia]]].
    exists (Id 50), (skipn 8 rates). split; [|reflexivity]. split; [reflexivity|]. split; [reflexivity|]. now apply wr_rates_W.
  - injection E as <-. destruct G as (T & _ & We & Le). split; [reflexivity|]. split; [exact T|]. destruct e as [t b]. now apply B.
Qed.
Lemma items_made rates layout : ok_rate_list rates -> Forall good layout -> (In RMore layout -> 8 < length rates) ->
  forall items, map Some items = map (rate_item rates) layout ->
  Forall2 item_element items (map (raw_rates rates) layout) /\ Forall wf_item items /\ Forall fits (map (raw_rates rates) layout) /\
  wf_bytes (enc_elements (map (raw_rates rates) layout)).
Proof.
  intros O F. induction F as [|i layout G F IH]; intros M items E; cbn [map] in *.
  - destruct items; [|discriminate E]. split; [constructor|]. split; [constructor|]. split; constructor.
  - destruct items as [|x items]; [discriminate E|]. cbn [map] in E. injection E as Ex E.
    destruct (IH (fun J => M (or_intror J)) items E) as (A & B & C & D).
    destruct (item_made rates i x O G (fun e => M (or_introl e)) (eq_sym Ex)) as (A1 & B1 & C1 & D1).
    split; [now constructor|]. split; [now constructor|]. split; [now constructor|].
    unfold enc_elements. cbn [map concat]. apply Forall_app. split; [exact D1|exact D].
Qed.
Definition pick_first (rates : list N) (i : RateItem) : option (list N) := match i with RFirst => Some (firstn 8 rates) | _ => None end.
Definition pick_more (rates : list N) (i : RateItem) : option (list N) := match i with RMore => Some (skipn 8 rates) | _ => None end.
Lemma pick_hd {A} (w : A) (f : RateItem -> option A) l i : (forall j, f j = None \/ f j = Some w) -> f i = Some w -> In i l -> hd_error (somes (map f l)) = Some w.
Proof.
  intros H E J. induction l as [|j l IH]; [destruct J|]. cbn [map somes]. destruct (H j) as [X|X]; rewrite X; [|reflexivity].
  apply IH. destruct J as [->|J]; [congruence|exact J].
Qed.
Lemma pick_none {A} (f : RateItem -> option A) l : (forall j, In j l -> f j = None) -> hd_error (somes (map f l)) = None.
Proof. induction l as [|j l IH]; intros H; cbn [map somes]; [reflexivity|]. rewrite (H j (or_introl eq_refl)). apply IH. intros k K. apply H. now right. Qed.
Lemma holds_first rates layout : ok_rate_list rates -> Forall good layout -> forall items, map Some items = map (rate_item rates) layout ->
  holds_values SupportedRatesElement (ok_rates 8) items (map (pick_first rates) layout).
Proof.
  intros (W & L) F. unfold holds_values. induction F as [|i layout G F IH]; intros items E; destruct items as [|x items]; try discriminate E; cbn [map] in *; constructor; injection E as Ex E.
  - pose proof (firstn_le_length 8 rates) as L8. destruct i as [| |e]; cbn [pick_first rate_item] in *.
    + unfold supported_rates_new in Ex. rewrite (proj2 (Nat.leb_le _ _) L8) in Ex. cbn [option_map] in Ex. injection Ex as ->.
      split; [reflexivity|]. split; [split; [now apply wf_firstn|exact L8]|]. right. cbn [et_measure SupportedRatesElement]. rewrite firstn_length. lia.
    + intros raw R (body & ->). destruct (extended_supported_rates_new (skipn 8 rates)) as [y|]; [|discriminate Ex]. cbn [option_map] in Ex. injection Ex as ->.
      destruct R as (id & b & (I & _) & Q). cbn in I. subst id. discriminate Q.
    + injection Ex as ->. intros raw R (body & ->). cbn in R. subst e. destruct G as (_ & N & _). apply N. now left.
  - now apply IH.
Qed.
Lemma holds_more rates layout : ok_rate_list rates -> Forall good layout -> (In RMore layout -> 8 < length rates) -> forall items, map Some items = map (rate_item rates) layout ->
  holds_values ExtendedSupportedRatesElement (ok_rates 255) items (map (pick_more rates) layout).
Proof.
  intros (W & L) F. unfold holds_values. induction F as [|i layout G F IH]; intros M items E; destruct items as [|x items]; try discriminate E; cbn [map] in *; constructor; injection E as Ex E.
  - destruct i as [| |e]; cbn [pick_more rate_item] in *.
    + intros raw R (body & ->). destruct (supported_rates_new (firstn 8 rates)) as [y|]; [|discriminate Ex]. cbn [option_map] in Ex. injection Ex as ->.
      destruct R as (id & b & (I & _) & Q). cbn in I. subst id. discriminate Q.
    + specialize (M (or_introl eq_refl)). unfold extended_supported_rates_new in Ex. destruct (Nat.leb_spec (length (skipn 8 rates)) 251) as [L2|]; [|discriminate Ex].
      cbn [option_map] in Ex. injection Ex as ->.
      split; [reflexivity|]. split; [split; [now apply wf_skipn|lia]|]. right. cbn [et_measure ExtendedSupportedRatesElement]. rewrite skipn_length. lia.
    + injection Ex as ->. intros raw R (body & ->). cbn in R. subst e. destruct G as (_ & N & _). apply N. right. now left.
  - apply IH; [|exact E]. intros J. apply M. now right.
Qed.
Lemma rates_told rates layout c : ok_rate_list rates -> rate_layout rates layout -> map Some (chain_items c) = map (rate_item rates) layout ->
  end_visible (map (raw_rates rates) layout) [] ->
  let es := enc_elements (map (raw_rates rates) layout) in
  Writes (wr_chain c) es /\ wf_bytes es /\ end_ok es /\ rates_in es = Ok rates.
Proof.
  intros O (HF & HM & G) E EV es. change (Forall good layout) in G.
  destruct (items_made rates layout O G (proj1 HM) _ E) as (C1 & C2 & C3 & W).
  destruct (lookup_written SupportedRatesElement (ok_rates 8) (fun s => s) c _ _ Logic.I rd_supported_rates_NP supported_rates_round_trip C1 C2 C3 EV (holds_first rates layout O G _ E)) as (Wc & _ & G1).
  destruct (lookup_written ExtendedSupportedRatesElement (ok_rates 255) (fun s => s) c _ _ Logic.I rd_extended_rates_NP extended_rates_round_trip C1 C2 C3 EV
    (holds_more rates layout O G (proj1 HM) _ E)) as (_ & _ & G2).
  split; [exact Wc|]. split; [exact W|]. split.
  { right. unfold es. destruct layout as [|i l]; [destruct HF|]. unfold enc_elements. cbn [map concat]. discriminate. }
  unfold rates_in. fold es in G1, G2. rewrite G1, G2. cbn [rbind].
  rewrite (pick_hd (firstn 8 rates) (pick_first rates) layout RFirst); [|intros []; cbn; auto|reflexivity|exact HF].
  cbn [option_map all_of]. rewrite rates_collect_id. cbn [rbind].
  destruct (Nat.ltb_spec 8 (length rates)) as [L|L].
  - rewrite (pick_hd (skipn 8 rates) (pick_more rates) layout RMore); [|intros []; cbn; auto|reflexivity|now apply HM].
    cbn [option_map all_of]. rewrite rates_collect_id. cbn [rbind]. now rewrite firstn_skipn.
  - rewrite (pick_none (pick_more rates) layout).
    + cbn [option_map all_of rbind]. rewrite app_nil_r, firstn_all2 by lia. reflexivity.
    + intros j J. destruct j; try reflexivity. apply HM in J. lia.
Qed.
Lemma said l a rates f : listens l -> ok_rate_list rates -> says a rates f -> sent l f (Some (a, rates)).
Proof.
  intros (TA & I0 & I4) O S. destruct S as [h time interval caps layout c buf buf' n Hh Ha Ht Hi Hc L E EV Room Wr|h caps interval layout c buf buf' n Hh Ha Hc Hi L E EV Room Wr].
  - destruct (rates_told rates layout c O L E EV) as (Wc & We & EO & R). set (es := enc_elements (map (raw_rates rates) layout)) in *.
    set (w := mkBeacon time interval caps (c_chain c)) in *.
    assert (X : from_beacon (h, with_beacon w es) = Some (a, rates)) by (unfold from_beacon, learn; cbn [fst snd with_beacon bb_elements]; now rewrite R, Ha).
    rewrite <- X. exact (sent_mgmt l _ _ Beacon _ _ _ _ _ _ _ from_beacon h w es buf buf' n beacon_type I0 Hh (conj Ht (conj Hi Hc)) We Wc (or_intror EO) Room Wr).
  - destruct (rates_told rates layout c O L E EV) as (Wc & We & EO & R). set (es := enc_elements (map (raw_rates rates) layout)) in *.
    set (w := mkAssocReq caps interval (c_chain c)) in *.
    assert (X : from_request (h, with_assoc_req w es) = Some (a, rates)) by (unfold from_request, learn; cbn [fst snd with_assoc_req aq_elements]; now rewrite R, Ha).
    rewrite <- X. exact (sent_mgmt l _ _ AssociationRequest _ _ _ _ _ _ _ from_request h w es buf buf' n association_request_type I4 Hh (conj Hc Hi) We Wc (or_intror EO) Room Wr).
Qed.
Lemma talk_channel rates_of l air who : listens l -> talk rates_of l air who -> exists due, channel l air due /\ somes due = map (fun a => (a, rates_of a)) who.
Proof.
  intros S H. induction H as [|a f air who O A H (due & C & M)|f air who A H (due & C & M)|a f b air who O A D H (due & C & M)|f b air who A D H (due & C & M)].
  - exists []. split; [constructor|reflexivity].
  - exists (Some (a, rates_of a) :: due). split; [constructor; [now apply said|exact C]|]. cbn [somes map]. now rewrite M.
  - exists (None :: due). split; [now constructor|exact M].
  - exists due. split; [|exact M]. exact (channel_damaged l f _ b air due (said l a _ f S O A) D C).
  - exists due. split; [|exact M]. exact (channel_damaged l f _ b air due A D C).
Qed.
Lemma last_told_spec rates_of a who due : somes due = map (fun a => (a, rates_of a)) who ->
  last_told a due = if in_dec (list_eq_dec N.eq_dec) a who then Some (rates_of a) else None.
Proof.
  revert who. induction due as [|[[b r]|] due IH]; intros who E; cbn [somes last_told] in *.
  - destruct who; [|discriminate E]. destruct (in_dec _ _ _) as [[]|_]. reflexivity.
  - destruct who as [|c who]; [discriminate E|]. cbn [map] in E. injection E as -> -> E. rewrite (IH who E).
    destruct (in_dec (list_eq_dec N.eq_dec) a who) as [J|J]; destruct (in_dec (list_eq_dec N.eq_dec) a (c :: who)) as [J'|J'].
    + reflexivity.
    + exfalso. apply J'. now right.
    + destruct (list_eq_dec N.eq_dec c a) as [->|D]; [reflexivity|]. destruct J' as [X|X]; [contradiction|contradiction].
    + destruct (list_eq_dec N.eq_dec c a) as [->|D]; [|reflexivity]. exfalso. apply J'. now left.
  - rewrite (IH who E). destruct (in_dec _ _ _); reflexivity.
Qed.
Theorem known rates_of l air who a : listens l -> talk rates_of l air who ->
  (In a who -> knows l air a = Ok (Some (rates_of a))) /\ (~ In a who -> knows l air a = Ok None).
Proof.
  intros S T. destruct (talk_channel rates_of l air who S T) as (due & C & M). unfold knows. rewrite (through_noise _ l air due (proj1 S) C). cbn [rbind].
  rewrite (last_told_spec rates_of a who due M). destruct (in_dec _ _ _); split; intros; reflexivity || contradiction.
Qed.
Lemma rate_fields r : (r < 256)%N -> rate_in_kbps r = speed r /\ (lgetb EncodedRate_layout "is_b" r = true <-> is_basic r).
Proof.
  intros B. assert (X : forallb (fun n => let r := N.of_nat n in (rate_in_kbps r =? speed r)%N && Bool.eqb (lgetb EncodedRate_layout "is_b" r) (128 <=? r)%N) (seq 0 256) = true)
    by (vm_compute; reflexivity).
  rewrite forallb_forall in X. specialize (X (N.to_nat r)). rewrite N2Nat.id in X. cbv zeta in X.
  assert (J : In (N.to_nat r) (seq 0 256)) by (apply in_seq; lia). apply X in J. apply andb_prop in J as [J1 J2].
  apply N.eqb_eq in J1. apply Bool.eqb_prop in J2. split; [exact J1|]. rewrite J2. unfold is_basic. apply N.leb_le.
Qed.
Lemma has_speed_spec rates v : wf_bytes rates -> (has_speed rates v = true <-> exists r, In r rates /\ speed r = v).
Proof.
  intros W. unfold has_speed. rewrite existsb_exists. unfold wf_bytes in W. rewrite Forall_forall in W. split; intros (r & J & E); exists r; (split; [exact J|]).
  - apply N.eqb_eq in E. now rewrite <- (proj1 (rate_fields r (W r J))).
  - apply N.eqb_eq. now rewrite (proj1 (rate_fields r (W r J))).
Qed.
Lemma common_spec mine theirs v : wf_bytes mine -> wf_bytes theirs -> (In v (common mine theirs) <-> in_common mine theirs v).
Proof.
  intros W1 W2. unfold common, in_common. rewrite filter_In, (has_speed_spec _ _ W2), in_map_iff. unfold wf_bytes in W1. rewrite Forall_forall in W1.
  split; intros (A & B); (split; [|exact B]); destruct A as (r & X & Y).
  - exists r. split; [exact Y|]. now rewrite <- (proj1 (rate_fields r (W1 r Y))).
  - exists r. split; [|exact X]. now rewrite (proj1 (rate_fields r (W1 r X))).
Qed.
Lemma joins_spec mine theirs : wf_bytes mine -> wf_bytes theirs -> (joins mine theirs = true <-> may_join mine theirs).
Proof.
  intros W1 W2. unfold joins, may_join, basic_ones. rewrite forallb_forall. pose proof W2 as W. unfold wf_bytes in W. rewrite Forall_forall in W. split.
  - intros H r J B. assert (K : In r (filter (lgetb EncodedRate_layout "is_b") theirs)) by (apply filter_In; split; [exact J|now apply (rate_fields r (W r J))]).
    apply H in K. rewrite (proj1 (rate_fields r (W r J))) in K. now apply has_speed_spec.
  - intros H r K. apply filter_In in K as [J B]. apply (rate_fields r (W r J)) in B. rewrite (proj1 (rate_fields r (W r J))). apply has_speed_spec; [exact W1|].
    destruct (H r J B) as (r' & J' & E). now exists r'.
Qed.
Theorem agreement rates_of l1 l2 air1 air2 who1 who2 a b : ok_rate_list (rates_of a) -> ok_rate_list (rates_of b) ->
  listens l1 -> listens l2 -> talk rates_of l1 air1 who1 -> talk rates_of l2 air2 who2 -> In b who1 -> In a who2 ->
  exists rb ra, knows l1 air1 b = Ok (Some rb) /\ knows l2 air2 a = Ok (Some ra) /\
    (forall v, In v (common (rates_of a) rb) <-> in_common (rates_of a) (rates_of b) v) /\
    (forall v, In v (common (rates_of a) rb) <-> In v (common (rates_of b) ra)) /\
    (joins (rates_of a) rb = true <-> may_join (rates_of a) (rates_of b)).
Proof.
  intros (Wa & _) (Wb & _) S1 S2 T1 T2 J1 J2. exists (rates_of b), (rates_of a).
  split; [now apply (known rates_of l1 air1 who1 b S1 T1)|]. split; [now apply (known rates_of l2 air2 who2 a S2 T2)|].
  split; [intros v; now apply common_spec|]. split; [|now apply joins_spec].
  intros v. rewrite !common_spec by assumption. unfold in_common. tauto.
Qed.
(** more rates cannot be told *)
Lemma limit rates : wf_bytes rates -> (length rates <= 259 <-> exists x y, rate_item rates RFirst = Some x /\ rate_item rates RMore = Some y).
Proof.
  intros W. unfold rate_item, supported_rates_new, extended_supported_rates_new. rewrite (proj2 (Nat.leb_le _ _) (firstn_le_length 8 rates)), skipn_length. cbn [option_map].
  destruct (Nat.leb_spec (length rates - 8) 251) as [L|L]; cbn [option_map]; split.
  - intros _. eexists _, _. split; reflexivity.
  - intros _. lia.
  - intros X. lia.
  - intros (x & y & _ & E). discriminate E.
Qed.
End F.
