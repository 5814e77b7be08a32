(** Facts about the scan. *)
From Verif Require Import Base SpecBase BaseFacts Enums Common Elements SpecElements ElementsFacts ElementTypes SpecElementTypes ElementTypesFacts ElementTypesFacts2 Suites Rsn SpecRsn
  RsnFacts RsnFacts2 RsnFacts3 RsnFacts4 Mgmt SpecMgmt MgmtFacts Generic SpecGeneric SpecDelivery DeliveryFacts SpecNoise NoiseFacts HandshakeFacts SpecScan.

(** ** Bytes *)
Lemma oui_suite_wf t : (t < 256)%N -> wf_bytes (ieee_suite t).
Proof. intros T. unfold ieee_suite. repeat (constructor; [reflexivity|]). constructor; [exact T|constructor]. Qed.
Lemma enc_cipher_wf c : wf_bytes (enc_cipher c).
Proof. destruct c; cbn [enc_cipher cipher_number]; first [apply oui_suite_wf; reflexivity|apply le_bytes_wf]. Qed.
Lemma enc_akm_wf a : wf_bytes (enc_akm a).
Proof. destruct a; cbn [enc_akm akm_number]; first [apply oui_suite_wf; reflexivity|apply le_bytes_wf]. Qed.
Lemma concat_wf {A} (enc : A -> bytes) l : Forall (fun x => wf_bytes (enc x)) l -> wf_bytes (concat (map enc l)).
Proof. intros F. induction F as [|x l W F IH]; cbn; [constructor|]. apply Forall_app. split; assumption. Qed.
Lemma opt_wf {A} (enc : A -> bytes) o : (forall x, o = Some x -> wf_bytes (enc x)) -> wf_bytes (opt_enc enc o).
Proof. destruct o as [x|]; cbn; intros H; [now apply H|constructor]. Qed.
Lemma enc_list_wf {A} k (enc : A -> bytes) l : Forall (fun x => wf_bytes (enc x)) l -> wf_bytes (enc_list k enc l).
Proof. intros F. unfold enc_list. apply Forall_app. split; [apply le_bytes_wf|now apply concat_wf]. Qed.
Lemma enc_rsn_wf k v : ok_view v -> wf_bytes (enc_rsn k v).
Proof.
  intros (_ & _ & _ & _ & P & _). unfold enc_rsn. apply Forall_app. split; [apply le_bytes_wf|].
  apply Forall_app. split; [apply opt_wf; intros; apply enc_cipher_wf|].
  apply Forall_app. split; [apply opt_wf; intros; apply enc_list_wf, Forall_forall; intros; apply enc_cipher_wf|].
  apply Forall_app. split; [apply opt_wf; intros; apply enc_list_wf, Forall_forall; intros; apply enc_akm_wf|].
  apply Forall_app. split; [apply opt_wf; intros; apply le_bytes_wf|].
  apply Forall_app. split; [|apply opt_wf; intros; apply enc_cipher_wf].
  apply opt_wf. intros l E. rewrite E in P. cbn in P. apply enc_list_wf. eapply Forall_impl; [|exact P]. intros p (_ & W). exact W.
Qed.
Lemma somes_head {A B} (f : A -> option B) (w : B) l : (forall a, f a = None \/ f a = Some w) ->
  hd_error (somes (map f l)) = if existsb (fun a => match f a with Some _ => true | None => false end) l then Some w else None.
Proof.
  intros H. induction l as [|a l IH]; cbn [map somes existsb]; [reflexivity|]. destruct (H a) as [E|E]; rewrite E; cbn [somes hd_error orb]; [exact IH|reflexivity].
Qed.

Section F.
Context {cfg : Cfg}.
Lemma rsn_once v : ok_security v -> pmkid_count v = 0 -> caps_readable v -> RoundTrip RsnElement (fun x => shows x v) (fun _ => received v).
Proof.
  intros (O & G & L & E) P C. pose proof (enc_standard v P) as X.
  assert (L4 : length (enc_rsn 4 v) <= 255) by now rewrite X.
  intros x Sx. exists (enc_rsn 1 v). split; [rewrite <- X; now apply rsn_write|]. split; [now apply rsn_measure_ok|]. split; [now apply enc_rsn_wf|].
  rewrite <- X. apply rd_rsn_written; try assumption. now apply fit_255.
Qed.
Lemma rsn_long v : 2 <= length (enc_rsn 1 v).
Proof. unfold enc_rsn. rewrite app_length, le_bytes_length. lia. Qed.

(** ** One announcement *)
Definition sign_of (i : NetItem) : option N := match i with ISsid => Some 0%N | IChannel => Some 3%N | ISecurity _ => Some 48%N | IOther _ => None end.
Lemma typed_is {V Q} (t : ElementType V Q) w id raw : et_id t = Id id -> item_element (Typed (elem_of t w)) raw -> re_type raw = id.
Proof. intros E (id' & body & (I & _) & ->). cbn in I. rewrite E in I. subst id'. reflexivity. Qed.
Lemma item_type nw i raw : item_element (chain_item nw i) raw -> match i with IOther e => raw = e | _ => Some (re_type raw) = sign_of i end.
Proof.
  destruct i as [| |x|e]; cbn [chain_item sign_of]; intros H.
  - f_equal. now apply (typed_is SSIDElement (nw_ssid nw)).
  - f_equal. now apply (typed_is DSSSParameterSetElement (nw_channel nw)).
  - f_equal. now apply (typed_is RsnElement x).
  - exact H.
Qed.
Definition good_item (nw : Network) (i : NetItem) : Prop :=
  match i with ISecurity x => exists v, nw_security nw = Some v /\ shows x v | IOther e => unrelated e | _ => True end.
Lemma items_written nw i : ok_network nw -> carried nw -> good_item nw i ->
  item_element (chain_item nw i) (raw_item nw i) /\ wf_item (chain_item nw i) /\ fits (raw_item nw i) /\ wf_bytes (enc_element (raw_item nw i)).
Proof.
  intros ((WS & LS & US) & ES & OC & OV) CA G. unfold carried in CA.
  assert (B : forall t b, (t < 256)%N -> wf_bytes b -> length b <= 255 -> fits (mkRaw t b) /\ wf_bytes (enc_element (mkRaw t b))).
  { intros t b T W L. split; [exact L|]. constructor; [exact T|]. constructor; [cbn [re_slice]; lia|exact W]. }
  destruct i as [| |x|e]; cbn [chain_item raw_item good_item] in *.
  - split; [|split; [reflexivity|apply B; [reflexivity|exact WS|lia]]].
    exists (Id 0), (nw_ssid nw). split; [|reflexivity]. split; [reflexivity|]. split; [reflexivity|]. apply pwrite0_W, wr_bytes_W.
  - split; [|split; [reflexivity|apply B; [reflexivity|constructor; [exact OC|constructor]|cbn; lia]]].
    exists (Id 3), [nw_channel nw]. split; [|reflexivity]. split; [reflexivity|]. split; [reflexivity|].
    destruct (fl_write _ _ _ _ _ _ dsss_fixed (nw_channel nw) OC) as (_ & _ & _ & W & _). exact W.
  - destruct G as (v & E & S). rewrite E in OV, CA |- *. destruct OV as (O & Gf & L & EL). destruct CA as (P & C).
    split; [|split; [reflexivity|apply B; [reflexivity|now apply enc_rsn_wf|exact L]]].
    exists (Id 48), (enc_rsn 1 v). split; [|reflexivity]. split; [reflexivity|]. split; [now apply rsn_measure_ok|].
    rewrite <- (enc_standard v P). apply rsn_write; try assumption. now rewrite (enc_standard v P).
  - destruct G as (T & _ & W & L). split; [reflexivity|]. split; [exact T|]. destruct e as [t b]. now apply B.
Qed.
Lemma layout_written nw layout : ok_network nw -> carried nw -> Forall (good_item nw) layout ->
  Forall2 item_element (map (chain_item nw) layout) (map (raw_item nw) layout) /\ Forall wf_item (map (chain_item nw) layout) /\
  Forall fits (map (raw_item nw) layout) /\ wf_bytes (enc_elements (map (raw_item nw) layout)).
Proof.
  intros N CA F. induction F as [|i layout G F (A & B & C & D)]; cbn [map].
  - split; [constructor|]. split; [constructor|]. split; constructor.
  - destruct (items_written nw i N CA G) as (A1 & B1 & C1 & D1). split; [now constructor|]. split; [now constructor|]. split; [now constructor|].
    unfold enc_elements. cbn [map concat]. apply Forall_app. split; [exact D1|exact D].
Qed.
Lemma holds {V Q} (t : ElementType V Q) id (okv : V -> Prop) nw layout (pick : NetItem -> option V) : ok_network nw -> et_id t = Id id ->
  Forall (good_item nw) layout -> In id [0; 3; 48]%N ->
  (forall i w, In i layout -> pick i = Some w -> chain_item nw i = Typed (elem_of t w) /\ okv w /\ (strict_end = false \/ et_measure t w <> 0)) ->
  (forall i, pick i = None -> sign_of i <> Some id) ->
  holds_values t okv (map (chain_item nw) layout) (map pick layout).
Proof.
  intros N Eid F K Yes No. unfold holds_values. induction F as [|i layout G F IH]; cbn [map]; constructor.
  - destruct (pick i) as [w|] eqn:Ep; [apply (Yes i w); [now left|exact Ep]|]. intros raw R (body & ->). rewrite Eid in R.
    pose proof (item_type nw i _ R) as T. specialize (No i Ep). destruct i as [| |x|e].
    1-3: cbn in T, No; congruence.
    subst e. destruct G as (_ & U & _). exact (U K).
  - apply IH. intros j w J. apply Yes. now right.
Qed.
Lemma told nw layout c : ok_network nw -> carried nw -> layout_of nw layout -> chain_items c = map (chain_item nw) layout -> end_visible (map (raw_item nw) layout) [] ->
  let es := enc_elements (map (raw_item nw) layout) in
  Writes (wr_chain c) es /\ wf_bytes es /\ end_ok es /\
  exists e, (forall h w, bb_elements w = es -> see (h, w) = Some (mh_bssid h, e)) /\ tells e nw.
Proof.
  intros N CA (HS & HC & HR & G) Ec EV es. change (Forall (good_item nw) layout) in G.
  destruct (layout_written nw layout N CA G) as (C1 & C2 & C3 & W). pose proof N as (OS & ES & OC & OV). pose proof CA as CA'. unfold carried in CA'.
  assert (H0 : holds_values SSIDElement ok_ssid (chain_items c) (map (fun i => match i with ISsid => Some (nw_ssid nw) | _ => None end) layout)).
  { rewrite Ec. apply (holds SSIDElement 0 ok_ssid nw layout _ N eq_refl G); [now left| |].
    - intros i w _ E. destruct i; try discriminate E. injection E as <-. split; [reflexivity|]. split; [exact OS|].
      destruct ES as [?|NE]; [now left|right]. cbn. destruct (nw_ssid nw); [congruence|discriminate].
    - intros i E. destruct i; try discriminate E; discriminate. }
  assert (H3 : holds_values DSSSParameterSetElement u8 (chain_items c) (map (fun i => match i with IChannel => Some (nw_channel nw) | _ => None end) layout)).
  { rewrite Ec. apply (holds DSSSParameterSetElement 3 u8 nw layout _ N eq_refl G); [right; now left| |].
    - intros i w _ E. destruct i; try discriminate E. injection E as <-. split; [reflexivity|]. split; [exact OC|]. right. discriminate.
    - intros i E. destruct i; try discriminate E; discriminate. }
  rewrite <- Ec in C1, C2.
  destruct (lookup_written SSIDElement ok_ssid (fun s => s) c _ _ Logic.I rd_ssid_NP (ssid_round_trip SSIDElement (or_introl eq_refl)) C1 C2 C3 EV H0) as (Wc & _ & G0).
  destruct (lookup_written DSSSParameterSetElement u8 (fun s => s) c _ _ Logic.I (fl_no_panic _ _ _ _ _ _ dsss_fixed) (fixed_round_trip _ _ _ _ _ _ dsss_fixed) C1 C2 C3 EV H3) as (_ & _ & G3).
  assert (R : exists r, get_first_element RsnElement es = Ok r /\ match nw_security nw, r with Some v, Some y => shows y v | None, None => True | _, _ => False end).
  { destruct (nw_security nw) as [v|] eqn:Ev.
    - assert (H48 : holds_values RsnElement (fun x => shows x v) (chain_items c) (map (fun i => match i with ISecurity x => Some x | _ => None end) layout)).
      { rewrite Ec. apply (holds RsnElement 48 (fun x => shows x v) nw layout _ N eq_refl G); [right; right; now left| |].
        - intros i w J E. destruct i as [| |x|]; try discriminate E. injection E as <-. split; [reflexivity|].
          rewrite Forall_forall in G. destruct (G _ J) as (v' & E' & S). rewrite Ev in E'. injection E' as <-. split; [exact S|]. right.
          cbn [et_measure RsnElement]. destruct OV as (O & _). destruct CA' as (P & _). rewrite (rsn_measure_ok x v S O P). pose proof (rsn_long v). lia.
        - intros i E. destruct i; try discriminate E; discriminate. }
      destruct (lookup_written RsnElement (fun x => shows x v) (fun _ => received v) c _ _ Logic.I rd_rsn_NP (rsn_once v OV (proj1 CA') (proj2 CA')) C1 C2 C3 EV H48) as (_ & _ & G48).
      exists (Some (received v)). split; [|apply received_shows]. fold es in G48. rewrite G48.
      destruct (HR ltac:(discriminate)) as (x & J). clear -J. induction layout as [|i l IH]; [destruct J|]. cbn [map somes].
      destruct i as [| |y|]; cbn; try reflexivity; apply IH; destruct J as [J|J]; congruence || exact J.
    - assert (H48 : holds_values RsnElement (fun _ => False) (chain_items c) (map (fun i => match i with ISecurity x => Some x | _ => None end) layout)).
      { rewrite Ec. apply (holds RsnElement 48 (fun _ => False) nw layout _ N eq_refl G); [right; right; now left| |].
        - intros i w J E. destruct i as [| |x|]; try discriminate E. rewrite Forall_forall in G. destruct (G _ J) as (v' & E' & _). congruence.
        - intros i E. destruct i; try discriminate E; discriminate. }
      destruct (lookup_written RsnElement (fun _ => False) (fun x => x) c _ _ Logic.I rd_rsn_NP (fun w (f : False) => match f with end) C1 C2 C3 EV H48) as (_ & _ & G48).
      exists None. split; [|exact Logic.I]. fold es in G48. rewrite G48. clear -G Ev. induction G as [|i l Gi G IH]; [reflexivity|]. cbn [map somes].
      destruct i as [| |y|]; cbn; try exact IH. destruct Gi as (v & E & _). congruence. }
  destruct R as (r & Gr & Sr).
  split; [exact Wc|]. split; [exact W|]. split.
  { right. unfold es. destruct layout as [|i l]; [destruct HS|]. cbn [map]. unfold enc_elements. cbn [map concat]. discriminate. }
  exists (mkEntry (Some (nw_ssid nw)) (Some (nw_channel nw)) r). split; [|split; [reflexivity|split; [reflexivity|exact Sr]]].
  intros h w Ew. unfold see, beacon_ssid. cbn [fst snd]. rewrite Ew, Gr. fold es in G0, G3. rewrite G0, G3.
  assert (P0 : forall l, In ISsid l -> hd_error (somes (map (fun i => match i with ISsid => Some (nw_ssid nw) | _ => None end) l)) = Some (nw_ssid nw)).
  { intros l J. induction l as [|i l IH]; [destruct J|]. cbn [map somes]. destruct i; cbn; try reflexivity; apply IH; destruct J as [J|J]; congruence || exact J. }
  assert (P3 : forall l, In IChannel l -> hd_error (somes (map (fun i => match i with IChannel => Some (nw_channel nw) | _ => None end) l)) = Some (nw_channel nw)).
  { intros l J. induction l as [|i l IH]; [destruct J|]. cbn [map somes]. destruct i; cbn; try reflexivity; apply IH; destruct J as [J|J]; congruence || exact J. }
  rewrite (P0 _ HS), (P3 _ HC). reflexivity.
Qed.
(** an announcement is a frame as in SpecNoise.v *)
Lemma announced l nw f : scans l -> ok_network nw -> carried nw -> announces nw f -> exists e, sent l f (Some (nw_bssid nw, e)) /\ tells e nw.
Proof.
  intros (TA & I0 & I1) N CA (probed & h & time & interval & caps & layout & first & rest & buf & buf' & n & Hh & Hb & Ht & Hi & Hc & L & El & EV & Room & Wr & ->).
  set (c := chain_of (chain_item nw first) (map (chain_item nw) rest)) in *.
  assert (Ec : chain_items c = map (chain_item nw) layout) by (unfold c; rewrite chain_of_items, El; reflexivity).
  destruct (told nw layout c N CA L Ec EV) as (Wc & We & EO & e & Se & Te).
  exists e. split; [|exact Te]. set (w := mkBeacon time interval caps (c_chain c)) in *. set (es := enc_elements (map (raw_item nw) layout)) in *.
  assert (S : see (h, with_beacon w es) = Some (nw_bssid nw, e)) by (rewrite <- Hb; apply Se; reflexivity).
  assert (ok : ok_beacon w) by (split; [exact Ht|split; assumption]).
  rewrite <- S. destruct probed.
  - exact (sent_mgmt l _ _ ProbeResponse _ _ _ _ _ _ _ see h w es buf buf' n probe_response_type I1 Hh ok We Wc (or_intror EO) Room Wr).
  - exact (sent_mgmt l _ _ Beacon _ _ _ _ _ _ _ see h w es buf buf' n beacon_type I0 Hh ok We Wc (or_intror EO) Room Wr).
Qed.

(** ** The table *)
Definition matches (news : list Network) (due : list (option (bytes * Entry))) : Prop :=
  Forall2 (fun nw s => exists e, s = (nw_bssid nw, e) /\ tells e nw) news (somes due).
Lemma heard_channel l air news : scans l -> heard l air news -> exists due, channel l air due /\ matches news due.
Proof.
  intros S H. induction H as [|nw f air news N CA A H (due & C & M)|f air news A H (due & C & M)|nw f b air news N CA A D H (due & C & M)|f b air news A D H (due & C & M)].
  - exists []. split; [constructor|]. constructor.
  - destruct (announced l nw f S N CA A) as (e & Sf & Te). exists (Some (nw_bssid nw, e) :: due). split; [now constructor|].
    unfold matches. cbn [somes]. constructor; [eauto|exact M].
  - exists (None :: due). split; [now constructor|]. exact M.
  - destruct (announced l nw f S N CA A) as (e & Sf & Te). exists due. split; [|exact M]. exact (channel_damaged l f _ b air due Sf D C).
  - exists due. split; [|exact M]. exact (channel_damaged l f _ b air due A D C).
Qed.
Lemma note_somes due t : fold_left note due t = fold_left note (map Some (somes due)) t.
Proof. revert t. induction due as [|[s|] due IH]; intros t; cbn [fold_left somes map]; [reflexivity|apply IH|apply IH]. Qed.
Lemma same_address_spec a b : same_address a b = true <-> a = b.
Proof. unfold same_address. destruct (list_eq_dec N.eq_dec a b); split; congruence. Qed.
Definition holds_table (table : list (bytes * Entry)) (known : bytes -> option Network) : Prop :=
  NoDup (map fst table) /\ forall b, match known b with Some nw => exists e, In (b, e) table /\ tells e nw | None => ~ In b (map fst table) end.
Lemma fst_filter (f : bytes -> bool) (t : list (bytes * Entry)) : map fst (filter (fun x => f (fst x)) t) = filter f (map fst t).
Proof. induction t as [|x t IH]; cbn; [reflexivity|]. destruct (f (fst x)); cbn; now rewrite IH. Qed.
Lemma note_one table known nw e : holds_table table known -> tells e nw ->
  holds_table (note table (Some (nw_bssid nw, e))) (fun b => if list_eq_dec N.eq_dec (nw_bssid nw) b then Some nw else known b).
Proof.
  intros (ND & K) T. unfold note.
  assert (Keys : forall b, In b (map fst (filter (fun x => negb (same_address (fst x) (nw_bssid nw))) table)) <-> In b (map fst table) /\ b <> nw_bssid nw).
  { intros b. rewrite (fst_filter (fun a => negb (same_address a (nw_bssid nw)))), filter_In, negb_true_iff. rewrite <- not_true_iff_false, same_address_spec. tauto. }
  split.
  - cbn [map fst]. constructor; [rewrite Keys; tauto|]. rewrite (fst_filter (fun a => negb (same_address a (nw_bssid nw)))). now apply NoDup_filter.
  - intros b. destruct (list_eq_dec N.eq_dec (nw_bssid nw) b) as [<-|D].
    + exists e. split; [now left|exact T].
    + specialize (K b). destruct (known b) as [nw'|].
      * destruct K as (e' & J & T'). exists e'. split; [|exact T']. right. apply filter_In. split; [exact J|]. cbn [fst].
        apply negb_true_iff, not_true_iff_false. rewrite same_address_spec. congruence.
      * cbn [map fst]. intros [J|J]; [congruence|]. apply Keys in J. tauto.
Qed.
Lemma holds_ext table k1 k2 : (forall b, k1 b = k2 b) -> holds_table table k1 -> holds_table table k2.
Proof. intros E (ND & K). split; [exact ND|]. intros b. rewrite <- E. apply K. Qed.
Lemma notes news seen : Forall2 (fun nw s => exists e, s = (nw_bssid nw, e) /\ tells e nw) news seen -> forall table known, holds_table table known ->
  holds_table (fold_left note (map Some seen) table) (fun b => match latest b news with Some nw => Some nw | None => known b end).
Proof.
  intros M. induction M as [|nw s news seen (e & -> & T) M IH]; intros table known H; cbn [map fold_left latest].
  - exact H.
  - eapply holds_ext; [|apply IH, (note_one table known nw e H T)]. intros b. cbn beta. destruct (latest b news); [reflexivity|].
    destruct (list_eq_dec N.eq_dec (nw_bssid nw) b); reflexivity.
Qed.
Theorem scanned l air news : scans l -> heard l air news -> exists table, scan l air = Ok table /\ up_to_date table news.
Proof.
  intros S H. destruct (heard_channel l air news S H) as (due & C & M). exists (fold_left note due []). split.
  - unfold scan. rewrite (through_noise _ l air due (proj1 S) C). reflexivity.
  - rewrite note_somes. assert (E : holds_table [] (fun _ => None)) by (split; [constructor|intros b []]).
    destruct (notes news _ M [] _ E) as (ND & K). split; [exact ND|]. intros b. specialize (K b). cbn beta in K. destruct (latest b news); exact K.
Qed.
End F.
