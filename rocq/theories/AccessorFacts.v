(** Proofs about the accessors. *)
From Coq Require Import SpecFloat.
From Verif Require Import Base SpecBase BaseFacts Bits BitsFacts Layouts SpecCommon Common CommonFacts Enums Utf8 SpecUtf8 Elements SpecElements ElementsFacts
  ElementTypes SpecElementTypes ElementTypesFacts ElementTypesFacts2 Rsn Tim SpecTim TimFacts TimFacts2 Mgmt SpecMgmt MgmtFacts MgmtFacts2 Accessors SpecAccessors.

Section Facts.
Context {cfg : Cfg}.

(** ** SSIDs *)
Lemma pread_ssid body : pread rd_ssid body 0 <> Panic /\
  forall s, pread rd_ssid body 0 = Ok s <-> s = body /\ length body <= 32 /\ is_utf8 body /\ end_ok body.
Proof.
  destruct body as [|b body].
  - unfold pread, gread. destruct (end_bad 0 (length (@nil N))) eqn:B.
    + split; [discriminate|]. intros s. split; [discriminate|]. intros (_ & _ & _ & [K|K]); [|congruence].
      unfold end_bad in B. rewrite K in B. discriminate.
    + assert (K : strict_end = false) by (unfold end_bad in B; destruct strict_end; [discriminate|reflexivity]).
      cbn [skipn length]. assert (R : rd_ssid [] = Ok ([], 0)) by reflexivity. rewrite R.
      split; [discriminate|]. intros s. split; [intros [= <-]|intros (-> & _); reflexivity].
      split; [reflexivity|]. split; [cbn; lia|]. split; [|now left]. apply rd_ssid_spec in R. tauto.
  - rewrite pread0 by discriminate. pose proof (rd_ssid_NP (b :: body)) as NP. pose proof (rd_ssid_spec (b :: body)) as S.
    destruct (rd_ssid (b :: body)) as [[x n]|e|]; [| |congruence].
    + destruct (S x n) as [S1 _]. destruct (S1 eq_refl) as (-> & -> & L & U).
      split; [discriminate|]. intros s. split; [intros [= <-]|intros (-> & _); reflexivity]. repeat split; auto. now right.
    + split; [discriminate|]. intros s. split; [discriminate|]. intros (-> & L & U & _).
      destruct (S (b :: body) (length (b :: body))) as [_ S2]. specialize (S2 (conj eq_refl (conj eq_refl (conj L U)))). discriminate.
Qed.
Lemma parsed_ssid e x : parsed SSIDElement e x -> (forall s, x = Some s <-> is_ssid e s).
Proof.
  intros [(body & -> & P)|(N & ->)] s; cbn [et_read et_id SSIDElement] in *.
  - destruct (pread_ssid body) as (NP & S). unfold element, is_ssid. cbn [id_prefix app].
    destruct (pread rd_ssid body 0) as [v|e|] eqn:E; [| |contradiction].
    + subst x. destruct (S v) as [S1 _]. destruct (S1 eq_refl) as (-> & L & U & K). split.
      * intros [= <-]. auto.
      * intros ([= ->] & _). reflexivity.
    + subst x. split; [discriminate|]. intros ([= ->] & L & U & K).
      destruct (S s) as [_ S2]. specialize (S2 (conj eq_refl (conj L (conj U K)))). discriminate.
  - split; [discriminate|]. intros (-> & _). destruct N. exists s. reflexivity.
Qed.
Lemma first_ssid_of es os : Forall2 (parsed SSIDElement) es os -> first_ssid es (hd_error (somes os)).
Proof.
  induction 1 as [|e x es os P _ IH]; [constructor|]. pose proof (parsed_ssid e x P) as S.
  destruct x as [s|]; cbn [somes hd_error].
  - apply fs_here, S. reflexivity.
  - apply fs_skip; [|exact IH]. intros s K. apply S in K. discriminate.
Qed.
Lemma first_ssid_fun es r r' : first_ssid es r -> first_ssid es r' -> r = r'.
Proof.
  intros H. revert r'. induction H as [|e es s H|e es r H _ IH]; intros r' K; inversion K; subst.
  - reflexivity.
  - destruct H as (-> & _). match goal with H : is_ssid _ _ |- _ => destruct H as ([= ->] & _) end. reflexivity.
  - match goal with H : forall s, ~ is_ssid _ s |- _ => destruct (H s); assumption end.
  - exfalso. eapply H; eassumption.
  - now apply IH.
Qed.
Lemma get_ssid es tail : Forall fits es -> end_visible es tail -> iteration_end tail ->
  exists r, get_first_element SSIDElement (enc_elements es ++ tail) = Ok r /\ first_ssid es r.
Proof.
  intros F V T. destruct (lookup_spec SSIDElement (enc_elements es ++ tail) I rd_ssid_NP) as (es' & os & E & P & _ & G).
  rewrite (raw_elements_enc es tail F V T) in E. injection E as <-. exists (hd_error (somes os)).
  split; [exact G|]. now apply first_ssid_of.
Qed.
Lemma beacon_ssid_spec (b : BeaconLikeBody bytes) es tail : bb_elements b = enc_elements es ++ tail -> Forall fits es -> end_visible es tail -> iteration_end tail ->
  exists r, beacon_ssid b = Ok r /\ first_ssid es r.
Proof. unfold beacon_ssid. intros ->. apply get_ssid. Qed.
Lemma probe_ssid_spec (b : ProbeRequestBody bytes) es tail : pq_elements b = enc_elements es ++ tail -> Forall fits es -> end_visible es tail -> iteration_end tail ->
  exists r, probe_ssid b = Ok r /\ first_ssid es r.
Proof. unfold probe_ssid. intros ->. apply get_ssid. Qed.
Lemma beacon_ssid_total (b : BeaconLikeBody bytes) : exists es tail r, bb_elements b = enc_elements es ++ tail /\ iteration_end tail /\
  beacon_ssid b = Ok r /\ first_ssid es r.
Proof.
  destruct (lookup_spec SSIDElement (bb_elements b) I rd_ssid_NP) as (es & os & E & P & _ & G).
  destruct (raw_elements_spec (bb_elements b)) as (es' & tail & E' & D & T). rewrite E in E'. injection E' as <-.
  exists es, tail, (hd_error (somes os)). repeat split; auto. now apply first_ssid_of.
Qed.
Lemma probe_ssid_total (b : ProbeRequestBody bytes) : exists es tail r, pq_elements b = enc_elements es ++ tail /\ iteration_end tail /\
  probe_ssid b = Ok r /\ first_ssid es r.
Proof.
  destruct (lookup_spec SSIDElement (pq_elements b) I rd_ssid_NP) as (es & os & E & P & _ & G).
  destruct (raw_elements_spec (pq_elements b)) as (es' & tail & E' & D & T). rewrite E in E'. injection E' as <-.
  exists es, tail, (hd_error (somes os)). repeat split; auto. now apply first_ssid_of.
Qed.
(** a frame built with an SSID in front of other elements *)
Lemma ssid_built s c raws t i cap : ok_ssid s -> end_ok s ->
  Forall2 item_element (chain_items c) raws -> Forall wf_item (chain_items c) -> Forall fits raws -> end_visible raws [] ->
  let els := enc_elements (mkRaw 0 s :: raws) in
  Writes (wr_chain (ChainLink (Typed (elem_of SSIDElement s)) c)) els /\
  beacon_ssid (mkBeacon t i cap els) = Ok (Some s) /\ probe_ssid (mkProbeReq els) = Ok (Some s).
Proof.
  intros (W & L & U) K I F B V els. split.
  - apply wr_chain_W.
    + cbn [chain_items]. constructor; [|exact I]. exists (Id 0), s. split; [|reflexivity]. split; [reflexivity|]. split; [reflexivity|].
      cbn [elem_of e_write SSIDElement et_write]. apply pwrite0_W, wr_bytes_W.
    + cbn [chain_items]. constructor; [cbn; lia|exact F].
    + constructor; [unfold fits; cbn; lia|exact B].
  - assert (X : exists r, get_first_element SSIDElement els = Ok r /\ first_ssid (mkRaw 0 s :: raws) r).
    { unfold els. rewrite <- (app_nil_r (enc_elements (mkRaw 0 s :: raws))). apply get_ssid.
      - constructor; [unfold fits; cbn; lia|exact B].
      - destruct K as [K'|K']; [now left|]. destruct V as [V|[V|V]]; [now left|congruence|]. right. right.
        cbn [rev]. destruct (rev raws) as [|x r]; cbn [app]; [|exact V]. exact K'.
      - apply iteration_end_nil. }
    destruct X as (r & G & S). assert (r = Some s) as ->.
    { eapply first_ssid_fun; [exact S|]. apply fs_here. unfold is_ssid. auto. }
    split; exact G.
Qed.
Lemma ssid_hidden s : ssid_is_hidden s = true <-> s = [].
Proof. destruct s; cbn; split; congruence. Qed.
Lemma ssid_macro_spec s : ssid_macro s = match ssid_new s with Some x => Ok x | None => Panic end.
Proof. unfold ssid_macro, ssid_new. now destruct (_ <=? _). Qed.
Lemma rates_macro_spec l :
  supported_rates_macro l = match supported_rates_new l with Some x => Ok x | None => Panic end /\
  extended_supported_rates_macro l = match extended_supported_rates_new l with Some x => Ok x | None => Panic end.
Proof. unfold supported_rates_macro, supported_rates_new, extended_supported_rates_macro, extended_supported_rates_new. now destruct (_ <=? 8), (_ <=? 251). Qed.
Lemma aid_macro_spec n : (n < 65536)%N -> (1 <= n <= 2007 -> exists a, aid_macro n = Ok a /\ aid_new_checked n = Some a)%N /\
  (~ (1 <= n <= 2007) -> aid_macro n = Panic)%N.
Proof.
  intros B. unfold aid_macro. split; intros H.
  - destruct (N.eqb_spec n 0); [lia|]. destruct (N.ltb_spec 2007 n); [lia|]. now apply aid_unchecked_agrees.
  - destruct (N.eqb_spec n 0); [reflexivity|]. destruct (N.ltb_spec 2007 n); [reflexivity|lia].
Qed.

(** ** Times *)
Lemma beacon_times bs b n : wf_bytes bs -> rd_beacon bs = Ok (b, n) ->
  beacon_timestamp_us b = le_val (firstn 8 bs) /\ beacon_interval_us b = (1024 * le_val (firstn 2 (skipn 8 bs)))%N.
Proof.
  intros W E. destruct (rd_beacon_inv bs b n W E I) as ((A & B & C) & ->). unfold beacon_timestamp_us, beacon_interval_us, fixed_beacon.
  rewrite <- !app_assoc. rewrite firstn_app_exact by (symmetry; apply le_bytes_length). rewrite skipn_app_exact by (symmetry; apply le_bytes_length).
  rewrite firstn_app_exact by (symmetry; apply le_bytes_length). rewrite !le_val_bytes, !N.mod_small by assumption. split; [reflexivity|apply N.mul_comm].
Qed.
Lemma atim_round_trip w : (w < 65536)%N -> ibss_new (atim_window_us w) = w.
Proof. intros H. unfold ibss_new, atim_window_us. rewrite N.mul_comm, N.div_mul by discriminate. now apply N.mod_small. Qed.
Lemma atim_floor d : (d < 65536 * 1024)%N -> (atim_window_us (ibss_new d) <= d < atim_window_us (ibss_new d) + 1024)%N.
Proof.
  intros H. unfold ibss_new, atim_window_us. rewrite N.mod_small by (apply N.div_lt_upper_bound; [discriminate|lia]).
  pose proof (N.div_mod d 1024 ltac:(discriminate)). pose proof (N.mod_lt d 1024 ltac:(discriminate)). lia.
Qed.
Lemma atim_exact d : atim_window_us (ibss_new d) = (1024 * ((d / 1024) mod 65536))%N.
Proof. reflexivity. Qed.
Lemma atim_wrong d : (d < 65536 * 1024 <-> atim_window_us (ibss_new d) <= d < atim_window_us (ibss_new d) + 1024)%N.
Proof.
  split; [apply atim_floor|]. rewrite atim_exact. intros H. pose proof (N.mod_lt (d / 1024) 65536 ltac:(discriminate)). lia.
Qed.
Lemma atim_truncates : exists d, ibss_new d = 0%N /\ (1024 * 65535 < d)%N.
Proof. exists (1024 * 65536)%N. split; reflexivity. Qed.
End Facts.
