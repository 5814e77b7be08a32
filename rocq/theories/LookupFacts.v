(** When looking up elements panics. *)
From Verif Require Import Base SpecBase BaseFacts Elements SpecElements ElementsFacts ElementTypes SpecElementTypes ElementTypesFacts ElementTypesFacts2 ElementTypesFacts3 ElementTypesFacts4.

Lemma filter_map_res_panic {A B} (f : A -> Res serr (option B)) l : (forall a e, f a <> Err e) ->
  filter_map_res f l = Panic <-> exists a, In a l /\ f a = Panic.
Proof.
  intros NE. induction l as [|a l IH]; cbn [filter_map_res In].
  - split; [discriminate|intros (a & [] & _)].
  - destruct (f a) as [o|e|] eqn:F; cbn [rbind]; [|exfalso; exact (NE _ _ F)|split; [eauto|reflexivity]].
    destruct (filter_map_res f l) as [os|e|]; cbn [rbind]; split; try discriminate.
    + intros (x & [<-|I] & P); [congruence|]. enough (X : Ok os = @Panic serr (list B)) by discriminate X. apply IH. eauto.
    + intros (x & [<-|I] & P); [congruence|]. enough (X : Err e = @Panic serr (list B)) by discriminate X. apply IH. eauto.
    + intros _. destruct (proj1 IH eq_refl) as (x & I & P). eauto.
    + reflexivity.
Qed.
Lemma find_map_res_panic {A B} (f : A -> Res serr (option B)) l : (forall a e, f a <> Err e) ->
  find_map_res f l = Panic <-> exists l1 a l2, l = l1 ++ a :: l2 /\ Forall (fun x => f x = Ok None) l1 /\ f a = Panic.
Proof.
  intros NE. induction l as [|a l IH]; cbn [find_map_res].
  - split; [discriminate|]. intros (l1 & x & l2 & E & _). destruct l1; discriminate.
  - destruct (f a) as [[b|]|e|] eqn:F; cbn [rbind]; [| |exfalso; exact (NE _ _ F)|].
    + split; [discriminate|]. intros (l1 & x & l2 & E & N & P). destruct l1 as [|y l1]; injection E as -> ->; [congruence|]. inversion N. congruence.
    + rewrite IH. split.
      * intros (l1 & x & l2 & -> & N & P). exists (a :: l1), x, l2. repeat split; [|exact P]. now constructor.
      * intros (l1 & x & l2 & E & N & P). destruct l1 as [|y l1]; injection E as -> ->; [congruence|]. inversion N; subst. exists l1, x, l2. auto.
    + split; [|reflexivity]. intros _. exists [], a, l. repeat split; [|exact F]. constructor.
Qed.
Section F.
Context {cfg : Cfg}.
Lemma match_and_parse_noerr {W R} (t : ElementType W R) : lookup_id (et_id t) -> forall raw e, match_and_parse t raw <> Err e.
Proof.
  intros L raw e. unfold match_and_parse. destruct (element_id_matches raw (et_id t)) eqn:M; [|discriminate].
  apply element_id_matches_spec in M; [|exact L]. destruct M as [body E]. unfold parse_raw_element.
  rewrite (raw_element_body_match _ _ body L E). cbn [rbind]. destruct (pread _ _ _); discriminate.
Qed.
Lemma match_and_parse_panic {W R} (t : ElementType W R) raw : lookup_id (et_id t) ->
  match_and_parse t raw = Panic <-> exists body, raw = element (et_id t) body /\ pread (et_read t) body 0 = Panic.
Proof.
  intros L. unfold match_and_parse. destruct (element_id_matches raw (et_id t)) eqn:M.
  - apply element_id_matches_spec in M; [|exact L]. destruct M as [body E]. unfold parse_raw_element.
    rewrite (raw_element_body_match _ _ body L E). cbn [rbind]. split.
    + intros P. exists body. split; [exact E|]. destruct (pread _ _ _); [discriminate|discriminate|reflexivity].
    + intros (b & E' & P). assert (b = body) as ->; [|now rewrite P].
      rewrite E in E'. unfold element in E'. injection E' as E'. apply app_inv_head in E'. congruence.
  - split; [discriminate|]. intros (b & E & _). assert (I : is_element (et_id t) raw) by (now exists b).
    apply (element_id_matches_spec raw (et_id t) L) in I. congruence.
Qed.
Lemma match_and_parse_none {W R} (t : ElementType W R) raw : lookup_id (et_id t) ->
  match_and_parse t raw = Ok None <-> parsed t raw None.
Proof.
  intros L. unfold match_and_parse, parsed. destruct (element_id_matches raw (et_id t)) eqn:M.
  - apply element_id_matches_spec in M; [|exact L]. pose proof M as [body E]. unfold parse_raw_element.
    rewrite (raw_element_body_match _ _ body L E). cbn [rbind]. split.
    + intros P. left. exists body. split; [exact E|]. destruct (pread _ _ _); [discriminate|reflexivity|discriminate].
    + intros [(b & E' & P)|[N _]]; [|contradiction]. assert (b = body) as ->.
      { rewrite E in E'. unfold element in E'. injection E' as E'. apply app_inv_head in E'. congruence. }
      destruct (pread _ _ _); [discriminate|reflexivity|contradiction].
  - split; [|reflexivity]. intros _. right. split; [|reflexivity]. intros I.
    apply (element_id_matches_spec raw (et_id t) L) in I. congruence.
Qed.
Lemma matching_panics {W R} (t : ElementType W R) bs es : lookup_id (et_id t) -> raw_elements bs = Ok es ->
  get_matching_elements t bs = Panic <-> exists body, In (element (et_id t) body) es /\ pread (et_read t) body 0 = Panic.
Proof.
  intros L E. unfold get_matching_elements. rewrite E. cbn [rbind]. rewrite filter_map_res_panic by (now apply match_and_parse_noerr). split.
  - intros (raw & I & P). apply match_and_parse_panic in P; [|exact L]. destruct P as (body & -> & P). eauto.
  - intros (body & I & P). eexists. split; [exact I|]. apply match_and_parse_panic; [exact L|]. eauto.
Qed.
Lemma first_panics {W R} (t : ElementType W R) bs es : lookup_id (et_id t) -> raw_elements bs = Ok es ->
  get_first_element t bs = Panic <->
  exists es1 body es2, es = es1 ++ element (et_id t) body :: es2 /\ Forall (fun raw => parsed t raw None) es1 /\ pread (et_read t) body 0 = Panic.
Proof.
  intros L E. unfold get_first_element. rewrite E. cbn [rbind]. rewrite find_map_res_panic by (now apply match_and_parse_noerr). split.
  - intros (l1 & raw & l2 & -> & N & P). apply match_and_parse_panic in P; [|exact L]. destruct P as (body & -> & P).
    exists l1, body, l2. repeat split; [|exact P]. eapply Forall_impl; [|exact N]. intros a X. now apply match_and_parse_none.
  - intros (l1 & body & l2 & -> & N & P). exists l1, (element (et_id t) body), l2. split; [reflexivity|]. split.
    + eapply Forall_impl; [|exact N]. intros a X. now apply match_and_parse_none.
    + apply match_and_parse_panic; [exact L|]. eauto.
Qed.
(** [parse_raw_element_as] *)
Lemma parse_raw_panics {W R} (t : ElementType W R) raw : NoPanic (et_read t) ->
  parse_raw_element t raw = Panic <->
  exists p, et_id t = VendorSpecific p /\ length (re_slice raw) < length p /\ (strict_end = false \/ re_slice raw <> []).
Proof.
  intros NP. unfold parse_raw_element.
  assert (PB : forall b, @rbind serr (option bytes) (option R) (Ok (Some b)) (fun body => match body with None => Ok None | Some b => res_ok (pread (et_read t) b 0) end) <> Panic).
  { intros b. cbn [rbind]. pose proof (pread_no_panic (et_read t) b 0 NP). destruct (pread _ _ _); [discriminate|discriminate|congruence]. }
  destruct (et_id t) as [i|x|p]; cbn [raw_element_body].
  - split; [intros X; now apply PB in X|intros (p & E & _); discriminate].
  - split; [|intros (p & E & _); discriminate]. pose proof (pread_no_panic rd_raw_ext (re_slice raw) 0 rd_raw_ext_NP) as NR.
    destruct (pread rd_raw_ext (re_slice raw) 0) as [v| |]; cbn [res_ok rbind option_map]; [|discriminate|congruence].
    intros X. now apply PB in X.
  - destruct (re_slice raw) as [|y s] eqn:S.
    + destruct strict_end eqn:SE.
      * unfold pread, gread, end_bad. rewrite SE. cbn. split; [discriminate|]. intros (q & _ & _ & [E|E]); congruence.
      * rewrite (pread_nil rd_vendor [] 0) by (try reflexivity; congruence). cbn [res_ok rbind].
        destruct p as [|a p].
        -- cbn [length slice_from Nat.leb skipn rbind]. split; [intros X; now apply (PB []) in X|]. intros (q & E & X & _). injection E as <-. cbn in X. lia.
        -- unfold slice_from. cbn [length Nat.leb rbind]. split; [|reflexivity]. intros _. exists (a :: p). cbn. repeat split; [lia|now left].
    + rewrite pread0 by discriminate. unfold rd_vendor. cbn [res_ok rbind]. unfold slice_from.
      destruct (Nat.leb_spec (length p) (length (y :: s))) as [LE|LT]; cbn [rbind].
      * split; [intros X; now apply (PB (skipn (length p) (y :: s))) in X|]. intros (q & E & X & _). injection E as <-. lia.
      * split; [|reflexivity]. intros _. exists p. repeat split; [lia|]. right. discriminate.
Qed.
(** mesh peering elements *)
Lemma enc_elements_wf es (tail : bytes) : wf_bytes (enc_elements es ++ tail) -> forall raw, In raw es -> wf_bytes (re_slice raw).
Proof.
  induction es as [|e es IH]; [contradiction|]. unfold enc_elements. cbn [map concat]. rewrite <- app_assoc. intros W raw [->|I].
  - apply wf_bytes_app in W. destruct W as [W _]. unfold enc_element in W. inversion W as [|? ? _ W']; subst. now inversion W'.
  - apply wf_bytes_app in W. destruct W as [_ W]. now apply IH.
Qed.
Lemma peering_body_panics body : wf_bytes body -> pread rd_peering body 0 = Panic <-> 24 < length body.
Proof.
  intros W. destruct (rd_peering_cases body W) as (A & B & C). destruct body as [|b body].
  - split; [|cbn; lia]. unfold pread, gread. destruct (end_bad _ _); [discriminate|]. cbn [skipn]. destruct A as [e ->]; [cbn; lia|discriminate].
  - rewrite pread0 by discriminate. split.
    + intros P. destruct (Nat.lt_ge_cases 24 (length (b :: body))) as [|G]; [assumption|]. exfalso.
      destruct (Nat.lt_ge_cases (length (b :: body)) 4) as [L|L]; [destruct (A L) as [e E]|destruct (B (conj L G)) as (p & l & rest & x & _ & _ & _ & _ & E)]; rewrite E in P; discriminate.
    + intros L. now rewrite (C L).
Qed.
Lemma peering_body_none raw : wf_bytes (re_slice raw) ->
  parsed MeshPeeringElement raw None <-> (re_type raw = 117%N -> length (re_slice raw) < 4).
Proof.
  intros W. unfold parsed. cbn [et_id et_read MeshPeeringElement]. destruct raw as [ty s]. cbn [re_type re_slice] in *.
  unfold is_element, element. cbn [id_prefix app]. split.
  - intros [(b & E & P)|[N _]] ->; [|exfalso; apply N; now exists s]. injection E as <-.
    destruct (Nat.lt_ge_cases (length s) 4) as [|G]; [assumption|]. exfalso.
    destruct (rd_peering_cases s W) as (_ & B & C). destruct s as [|x s]; [cbn in G; lia|]. rewrite pread0 in P by discriminate.
    destruct (Nat.lt_ge_cases 24 (length (x :: s))) as [L|L]; [rewrite (C L) in P; contradiction|].
    destruct (B (conj G L)) as (p & l & rest & y & _ & _ & _ & _ & E). rewrite E in P. discriminate.
  - intros H. destruct (N.eq_dec ty 117) as [->|N].
    + left. exists s. split; [reflexivity|]. specialize (H eq_refl). destruct (rd_peering_cases s W) as (A & _ & _). destruct (A H) as [e E].
      destruct s as [|x s]; [|rewrite pread0 by discriminate; now rewrite E].
      unfold pread, gread. destruct (end_bad _ _); [reflexivity|]. cbn [skipn]. now rewrite E.
    + right. split; [|reflexivity]. intros (b & E). congruence.
Qed.
Lemma peering_matching_panics bs es : wf_bytes bs -> raw_elements bs = Ok es ->
  get_matching_elements MeshPeeringElement bs = Panic <-> exists raw, In raw es /\ re_type raw = 117%N /\ 24 < length (re_slice raw).
Proof.
  intros W E. rewrite (matching_panics MeshPeeringElement bs es I E).
  destruct (raw_elements_spec bs) as (es' & tail & E' & EB & _). assert (es' = es) as -> by congruence.
  rewrite EB in W. pose proof (enc_elements_wf es tail W) as WE. split.
  - intros (body & IN & P). exists (element (Id 117) body). split; [exact IN|]. split; [reflexivity|].
    apply peering_body_panics in P; [exact P|]. exact (WE _ IN).
  - intros (raw & IN & T & L). exists (re_slice raw). cbn [et_id MeshPeeringElement]. unfold element. cbn [id_prefix app]. rewrite <- T. split.
    + now destruct raw.
    + apply peering_body_panics; [exact (WE _ IN)|exact L].
Qed.
Lemma peering_first_panics bs es : wf_bytes bs -> raw_elements bs = Ok es ->
  get_first_element MeshPeeringElement bs = Panic <->
  exists es1 raw es2, es = es1 ++ raw :: es2 /\ re_type raw = 117%N /\ 24 < length (re_slice raw) /\
    Forall (fun e => re_type e = 117%N -> length (re_slice e) < 4) es1.
Proof.
  intros W E. rewrite (first_panics MeshPeeringElement bs es I E).
  destruct (raw_elements_spec bs) as (es' & tail & E' & EB & _). assert (es' = es) as -> by congruence.
  rewrite EB in W. pose proof (enc_elements_wf es tail W) as WE. split.
  - intros (es1 & body & es2 & -> & N & P). exists es1, (element (Id 117) body), es2. split; [reflexivity|]. split; [reflexivity|]. split.
    + apply peering_body_panics in P; [exact P|]. apply (WE (element (Id 117) body)). apply in_elt.
    + apply Forall_forall. intros e IN. apply peering_body_none; [apply WE, in_or_app; auto|]. rewrite Forall_forall in N. auto.
  - intros (es1 & raw & es2 & -> & T & L & N). exists es1, (re_slice raw), es2. cbn [et_id MeshPeeringElement]. unfold element. cbn [id_prefix app]. rewrite <- T. split; [now destruct raw|].
    split.
    + apply Forall_forall. intros e IN. apply peering_body_none; [apply WE, in_or_app; auto|]. rewrite Forall_forall in N. auto.
    + apply peering_body_panics; [apply (WE raw), in_elt|exact L].
Qed.
End F.
