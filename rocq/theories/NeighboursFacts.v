(** Proofs for C70. *)
From Verif Require Import Base SpecBase BaseFacts Common Elements SpecElements ElementsFacts LookupFacts ElementTypes Mgmt SpecNeighbours.

Section Facts.
Context {cfg : Cfg}.

Lemma filter_map_own {W R} (t : ElementType W R) es mine : lookup_id (et_id t) -> own (et_id t) es mine ->
  filter_map_res (match_and_parse t) es = filter_map_res (match_and_parse t) mine.
Proof.
  intros L. induction 1 as [|raw es mine I _ IH|raw es mine I _ IH]; [reflexivity| |].
  - cbn [filter_map_res]. now rewrite IH.
  - cbn [filter_map_res]. unfold match_and_parse at 1. destruct (element_id_matches raw (et_id t)) eqn:M.
    + apply element_id_matches_spec in M; tauto.
    + cbn [rbind]. rewrite IH. destruct (filter_map_res (match_and_parse t) mine); reflexivity.
Qed.
Lemma find_map_own {W R} (t : ElementType W R) es mine : lookup_id (et_id t) -> own (et_id t) es mine ->
  find_map_res (match_and_parse t) es = find_map_res (match_and_parse t) mine.
Proof.
  intros L. induction 1 as [|raw es mine I _ IH|raw es mine I _ IH]; [reflexivity| |].
  - cbn [find_map_res]. now rewrite IH.
  - cbn [find_map_res]. unfold match_and_parse at 1. destruct (element_id_matches raw (et_id t)) eqn:M.
    + apply element_id_matches_spec in M; tauto.
    + exact IH.
Qed.
Lemma filter_own id es mine : lookup_id id -> own id es mine -> filter (fun raw => element_id_matches raw id) es = mine.
Proof.
  intros L. induction 1 as [|raw es mine I _ IH|raw es mine I _ IH]; [reflexivity| |]; cbn [filter].
  - apply (element_id_matches_spec raw id L) in I. now rewrite I, IH.
  - destruct (element_id_matches raw id) eqn:M; [|exact IH]. apply element_id_matches_spec in M; tauto.
Qed.
Lemma find_own id es mine : lookup_id id -> own id es mine ->
  find (fun raw => element_id_matches raw id) es = match mine with [] => None | raw :: _ => Some raw end.
Proof.
  intros L. induction 1 as [|raw es mine I _ IH|raw es mine I _ IH]; [reflexivity| |]; cbn [find].
  - apply (element_id_matches_spec raw id L) in I. now rewrite I.
  - destruct (element_id_matches raw id) eqn:M; [|exact IH]. apply element_id_matches_spec in M; tauto.
Qed.
Lemma own_exists id es : lookup_id id -> exists mine, own id es mine.
Proof.
  intros L. induction es as [|raw es [mine IH]]; [exists []; constructor|].
  destruct (element_id_matches raw id) eqn:M.
  - exists (raw :: mine). constructor; [now apply element_id_matches_spec|exact IH].
  - exists mine. constructor; [|exact IH]. intros I. apply (element_id_matches_spec raw id L) in I. congruence.
Qed.
Lemma own_unique id es m m' : own id es m -> own id es m' -> m = m'.
Proof. intros O. revert m'. induction O; intros m' O'; inversion O'; subst; try contradiction; try reflexivity; f_equal; auto. Qed.
Lemma own_one id es : lookup_id id -> exists mine, own id es mine /\ forall m, own id es m -> m = mine.
Proof. intros L. destruct (own_exists id es L) as [mine O]. exists mine. split; [exact O|]. intros m O'. now apply (own_unique id es). Qed.
Lemma own_app id a b ma mb : own id a ma -> own id b mb -> own id (a ++ b) (ma ++ mb).
Proof. induction 1; cbn; intros; auto; constructor; auto. Qed.
Lemma own_none id es : Forall (fun raw => ~ is_element id raw) es -> own id es [].
Proof. induction 1; constructor; auto. Qed.

Lemma lookup_own {W R} (t : ElementType W R) bs bs' es es' mine : lookup_id (et_id t) ->
  raw_elements bs = Ok es -> raw_elements bs' = Ok es' -> own (et_id t) es mine -> own (et_id t) es' mine ->
  get_first_element t bs = get_first_element t bs' /\ get_matching_elements t bs = get_matching_elements t bs'.
Proof.
  intros L E E' O O'. unfold get_first_element, get_matching_elements. rewrite E, E'. cbn [rbind].
  rewrite (find_map_own t es mine L O), (find_map_own t es' mine L O'), (filter_map_own t es mine L O), (filter_map_own t es' mine L O'). auto.
Qed.
Lemma lookup_raw_own id bs es mine : lookup_id id -> raw_elements bs = Ok es -> own id es mine ->
  get_matching_elements_raw bs id = Ok mine /\
  get_first_element_raw bs id = Ok (match mine with [] => None | raw :: _ => Some raw end).
Proof.
  intros L E O. unfold get_first_element_raw, get_matching_elements_raw. rewrite E. cbn [rbind rmap].
  now rewrite (filter_own id es mine L O), (find_own id es mine L O).
Qed.

(** what is found among written elements if there is room to see the last one, or not *)
Lemma raw_elements_last es tail : Forall fits es -> iteration_end tail ->
  raw_elements (enc_elements es ++ tail) = Ok es \/
  (~ end_visible es tail /\ exists es0 e, es = es0 ++ [e] /\ raw_elements (enc_elements es ++ tail) = Ok es0).
Proof.
  intros F T. destruct (Bool.bool_dec strict_end false) as [S|S].
  { left. apply raw_elements_enc; auto. now left. }
  destruct tail as [|x tail]; [|left; apply raw_elements_enc; auto; right; left; discriminate].
  destruct (rev es) as [|e l] eqn:R.
  { left. apply raw_elements_enc; auto. right. right. now rewrite R. }
  destruct (re_slice e) as [|y s] eqn:Se; [|left; apply raw_elements_enc; auto; right; right; rewrite R, Se; discriminate].
  right. split.
  { intros [V|[V|V]]; [auto|congruence|]. rewrite R in V. auto. }
  assert (es = rev l ++ [e]) as -> by (rewrite <- (rev_involutive es), R; reflexivity).
  exists (rev l), e. split; [reflexivity|].
  apply Forall_app in F as [F1 F2]. 
  replace (enc_elements (rev l ++ [e]) ++ []) with (enc_elements (rev l) ++ [re_type e; 0%N]).
  - apply raw_elements_enc; [exact F1|right; left; discriminate|]. right. split; [now apply Bool.not_false_is_true|]. eauto.
  - unfold enc_elements. rewrite map_app, concat_app, app_nil_r. cbn. unfold enc_element. rewrite Se. reflexivity.
Qed.
Lemma end_visible_app a b tail : b <> [] -> end_visible (a ++ b) tail <-> end_visible b tail.
Proof.
  intros H. unfold end_visible. rewrite rev_app_distr. destruct (rev b) as [|x l] eqn:R.
  - apply (f_equal (@rev _)) in R. rewrite rev_involutive in R. contradiction.
  - reflexivity.
Qed.

Lemma own_visible id es tail mine : Forall fits es -> iteration_end tail -> end_visible es tail -> own id es mine ->
  exists es', raw_elements (enc_elements es ++ tail) = Ok es' /\ own id es' mine.
Proof. intros F T V O. exists es. split; [|exact O]. now apply raw_elements_enc. Qed.

Lemma inserted_own id es1 extra es2 tail : lookup_id id -> Forall fits es1 -> Forall fits extra -> Forall fits es2 -> iteration_end tail ->
  end_visible (es1 ++ es2) tail -> Forall (fun raw => ~ is_element id raw) extra ->
  exists es mine, raw_elements (enc_elements (es1 ++ extra ++ es2) ++ tail) = Ok es /\ own id es mine /\ own id (es1 ++ es2) mine.
Proof.
  intros L F1 Fx F2 T V X. destruct (own_exists id es1 L) as [m1 O1], (own_exists id es2 L) as [m2 O2].
  assert (F : Forall fits (es1 ++ extra ++ es2)) by (rewrite !Forall_app; auto).
  destruct (raw_elements_last _ tail F T) as [E|(NV & es0 & e & Ee & E)].
  - exists (es1 ++ extra ++ es2), (m1 ++ m2). split; [exact E|]. split; [|now apply own_app].
    apply own_app; [exact O1|]. change m2 with ([] ++ m2). apply own_app; [now apply own_none|exact O2].
  - destruct es2 as [|y es2].
    + rewrite app_nil_r in Ee, V. rewrite app_nil_r in NV.
      destruct (rev extra) as [|x l] eqn:R.
      * apply (f_equal (@rev _)) in R. rewrite rev_involutive in R. cbn in R. subst extra. rewrite app_nil_r in NV. contradiction.
      * assert (extra = rev l ++ [x]) as -> by (rewrite <- (rev_involutive extra), R; reflexivity).
        rewrite app_assoc in Ee. apply app_inj_tail in Ee as [<- _].
        exists (es1 ++ rev l), m1. split; [exact E|]. split.
        -- rewrite <- (app_nil_r m1). apply own_app; [exact O1|]. apply own_none. now apply Forall_app in X as [X _].
        -- now rewrite app_nil_r.
    + exfalso. apply NV. rewrite app_assoc. apply end_visible_app; [discriminate|]. apply end_visible_app in V; [exact V|discriminate].
Qed.
Lemma inserted_lookup {W R} (t : ElementType W R) es1 extra es2 tail : lookup_id (et_id t) ->
  Forall fits es1 -> Forall fits extra -> Forall fits es2 -> iteration_end tail ->
  end_visible (es1 ++ es2) tail -> Forall (fun raw => ~ is_element (et_id t) raw) extra ->
  get_first_element t (enc_elements (es1 ++ extra ++ es2) ++ tail) = get_first_element t (enc_elements (es1 ++ es2) ++ tail) /\
  get_matching_elements t (enc_elements (es1 ++ extra ++ es2) ++ tail) = get_matching_elements t (enc_elements (es1 ++ es2) ++ tail).
Proof.
  intros L F1 Fx F2 T V X. destruct (inserted_own (et_id t) es1 extra es2 tail L F1 Fx F2 T V X) as (es & mine & E & O & O').
  apply (lookup_own t _ _ es (es1 ++ es2) mine); auto. apply raw_elements_enc; auto. rewrite Forall_app; auto.
Qed.
Lemma ssid_own (b b' : BeaconLikeBody bytes) es es' mine :
  raw_elements (bb_elements b) = Ok es -> raw_elements (bb_elements b') = Ok es' -> own (Id 0) es mine -> own (Id 0) es' mine ->
  beacon_ssid b = beacon_ssid b'.
Proof.
  intros E E' O O'. unfold beacon_ssid.
  destruct (lookup_own SSIDElement _ _ es es' mine I E E' O O') as [H _]. now rewrite H.
Qed.
(** an empty element at the very end is seen only if something follows, in versions of scroll that refuse empty reads at the end *)
Lemma inserted_strict : strict_end = true -> let es1 := [mkRaw 0 []] in let extra := [mkRaw 200 [7%N]] in
  get_first_element_raw (enc_elements es1) (Id 0) <> get_first_element_raw (enc_elements (es1 ++ extra)) (Id 0).
Proof.
  intros S. cbn zeta. 
  assert (E1 : raw_elements (enc_elements [mkRaw 0 []]) = Ok []).
  { change (enc_elements [mkRaw 0 []]) with (enc_elements [] ++ [0; 0]%N). apply raw_elements_enc; [constructor|right; left; discriminate|right; eauto]. }
  assert (E2 : raw_elements (enc_elements ([mkRaw 0 []] ++ [mkRaw 200 [7%N]])) = Ok [mkRaw 0 []; mkRaw 200 [7%N]]).
  { rewrite <- (app_nil_r (enc_elements _)). apply raw_elements_enc; [|right; right; discriminate|now left].
    repeat constructor; vm_compute; auto. }
  unfold get_first_element_raw. rewrite E1, E2. cbn. discriminate.
Qed.
End Facts.
Lemma own_one' id es : lookup_id id -> exists mine, own id es mine /\ forall m, own id es m -> m = mine.
Proof. exact (@own_one (Build_Cfg false false false) id es). Qed.
