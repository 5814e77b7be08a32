(** Association: it succeeds, it lasts, and the beacons speak of the right stations. *)
From Verif Require Import Base SpecBase BaseFacts Enums Common CommonFacts Elements SpecElements SpecElementTypes ElementsFacts Mgmt SpecMgmt MgmtFacts MgmtFacts2
  Generic SpecGeneric SpecDelivery DeliveryFacts SpecNoise NoiseFacts Tim SpecTim SpecPowerSave PowerSaveFacts PowerSaveFacts2 SpecAssoc AssocFacts.

Section F.
Context {cfg : Cfg}.
Variables (l : list (nat * Arm Heard)) (pick : list nat -> option nat) (bss : bytes).
Hypotheses (LI : listening l) (CH : chooses pick) (AB : address bss).
Lemma step_grows w e w1 : step l pick bss w e = Ok w1 -> (forall f, In f (w_air w) -> In f (w_air w1)) /\ (forall x, In x (w_known w) -> In x (w_known w1)).
Proof.
  destruct e as [sta s|b s|sta b]; cbn [step].
  - destruct (request bss sta s) as [f| |]; cbn; try discriminate. intros [= <-]. cbn. auto.
  - destruct (match_frames b (Some true) (map snd l)) as [[ra ta|ra ta aid|]| |]; try discriminate; try (intros [= <-]; auto).
    destruct (same ra bss); [|intros [= <-]; auto]. destruct (assign pick (w_table w) ta) as [t aid].
    destruct (response bss ta s aid) as [f| |]; cbn; try discriminate. intros [= <-]. cbn. auto.
  - destruct (match_frames b (Some true) (map snd l)) as [[ra ta|ra ta [a|]|]| |]; try discriminate; try (intros [= <-]; auto).
    destruct (same ra sta && same ta bss); intros [= <-]; cbn; auto.
Qed.
Lemma runs_grow w es w' : runs l pick bss w es w' -> (forall f, In f (w_air w) -> In f (w_air w')) /\ (forall x, In x (w_known w) -> In x (w_known w')).
Proof.
  intros R. induction R as [w|w e w1 es w2 P E R (I1 & I2)]; [auto|]. destruct (step_grows _ _ _ E) as (J1 & J2). auto.
Qed.
Lemma asked w es w' sta s : runs l pick bss w es w' -> In (Asks sta s) es -> exists f, request bss sta s = Ok f /\ In f (w_air w') /\ address sta /\ ok_choice s.
Proof.
  intros R. induction R as [w|w e w1 es w2 P E R IH]; intros I; [destruct I|]. destruct I as [->|I]; [|now apply IH].
  cbn [step possible] in *. destruct (request bss sta s) as [f| |] eqn:Ef; cbn in E; try discriminate E. injection E as <-.
  exists f. split; [reflexivity|]. split; [|exact P]. apply (proj1 (runs_grow _ _ _ R)). now left.
Qed.
Lemma runs_good' es w : runs l pick bss nobody es w -> good l bss w.
Proof. intros R. exact (proj1 (runs_good l pick bss LI CH AB _ _ _ R (good_nobody l bss))). Qed.
Lemma runs_app w es w1 es' w2 : runs l pick bss w es w1 -> runs l pick bss w1 es' w2 -> runs l pick bss w (es ++ es') w2.
Proof. intros R. induction R as [w|w e w1 es w1' P E R IH]; intros R2; [exact R2|]. cbn. econstructor; eauto. Qed.
Theorem served es w sta s s2 : runs l pick bss nobody es w -> In (Asks sta s) es -> ok_choice s2 ->
  find_station sta (w_table w) <> None \/ pick (map snd (w_table w)) <> None ->
  exists f g w2 a, request bss sta s = Ok f /\ runs l pick bss w [ApHears f s2; StaHears sta g] w2 /\ believes w2 sta = Some a.
Proof.
  intros R I O2 F. destruct (asked _ _ _ _ _ R I) as (f & Ef & J & A & O). pose proof (runs_good' _ _ R) as G. pose proof G as (ST & _).
  destruct (request_sent l bss LI AB sta s A O) as (f' & Ef' & Sf). rewrite Ef in Ef'. injection Ef' as <-. pose proof (proj1 LI) as TA.
  pose proof (sent_runs l f _ TA Sf) as Mf.
  pose proof (assigned l pick bss CH (w_table w) sta ST) as X.
  assert (NA : exists a, snd (assign pick (w_table w) sta) = Some a).
  { unfold assign. destruct (find_station sta (w_table w)) as [a|]; [cbn; eauto|]. destruct (pick (map snd (w_table w))) as [a|]; [cbn; eauto|]. destruct F as [F|F]; now destruct F. }
  destruct NA as (a & Ea). destruct (assign pick (w_table w) sta) as [t aid] eqn:EA. cbn in Ea. subst aid. destruct X as (_ & _ & _ & It & Ra).
  destruct (response_sent l bss LI AB sta s2 (Some a) A O2 Ra) as (g & Eg & Sg). pose proof (sent_runs l g _ TA Sg) as Mg.
  exists f, g, (mkWorld t ((sta, a) :: w_known w) (g :: w_air w)), a. split; [exact Ef|].
  assert (B : same bss bss = true) by now apply same_spec. assert (B' : same sta sta = true) by now apply same_spec. split.
  - apply (runs_more l pick bss _ _ (mkWorld t (w_known w) (g :: w_air w))).
    + split; [left; left; exact J|exact O2].
    + cbn [step]. rewrite Mf, B, EA, Eg. reflexivity.
    + eapply runs_more; [|cbn [step]; rewrite Mg, B, B'; reflexivity|constructor]. left. left. now left.
  - unfold believes, find_station. cbn [w_known find fst]. rewrite B'. reflexivity.
Qed.
Theorem lasts es w es' w' sta a : runs l pick bss nobody es w -> runs l pick bss w es' w' -> believes w sta = Some a -> believes w' sta = Some a.
Proof.
  intros R R' B. pose proof (runs_good' _ _ (runs_app _ _ _ _ _ R R')) as ((N1 & _) & KN & _). apply find_some in B. apply (proj2 (runs_grow _ _ _ R')) in B.
  rewrite Forall_forall in KN. unfold believes. destruct (find_station sta (w_known w')) as [b|] eqn:E.
  - f_equal. apply (unique_in (w_table w') sta b a N1); apply KN; [now apply find_some|exact B].
  - exfalso. apply (find_none _ _ E). change sta with (fst (sta, a)). now apply in_map.
Qed.
(** ** Beacons *)
Lemma hear_whole lb a s w : listens lb a -> 1 <= a -> ok_setup s -> Forall (fun a => a <= 2007) w -> hear lb s whole_map w = Ok (Some (waits w 0, waits w a)).
Proof.
  intros Li A S Fw. unfold hear. destruct (whole_shows w Fw) as (tb & b & bs & E & SH & T & R). rewrite E. cbn [rbind].
  destruct (one_beacon lb a s tb b bs _ Li S SH R) as (frame & said & Sb & M & Sa). rewrite Sb. cbn [rbind]. rewrite M, T. do 3 f_equal.
  apply eq_true_iff_eq. rewrite Sa, waits_spec. split; [intros [_ J]; exact J|intros J; split; [lia|exact J]].
Qed.
Theorem told_by_address es w sta a waiting aids lb s : runs l pick bss nobody es w -> believes w sta = Some a ->
  Forall2 (fun x n => find_station x (w_table w) = Some n) waiting aids -> listens lb a -> ok_setup s ->
  exists said, hear lb s whole_map aids = Ok (Some (false, said)) /\ (said = true <-> In sta waiting).
Proof.
  intros R B F Li S. pose proof (runs_good' _ _ R) as ((N1 & N2 & Fr) & KN & _). apply find_some in B. rewrite Forall_forall in KN. apply KN in B.
  rewrite Forall_forall in Fr.
  assert (Rg : forall x n, In (x, n) (w_table w) -> 1 <= n <= 2007) by (intros x n I; apply Fr; change n with (snd (x, n)); now apply in_map).
  assert (Fa : Forall (fun n => 1 <= n <= 2007) aids).
  { clear -F Rg. induction F as [|x n waiting aids E F IH]; constructor; [|exact IH]. apply (Rg x). now apply find_some. }
  exists (waits aids a). rewrite (hear_whole lb a s aids Li); [|apply (Rg sta); exact B|exact S|eapply Forall_impl; [|exact Fa]; cbn; lia].
  split.
  - do 3 f_equal. apply not_true_iff_false. rewrite waits_spec. intros I. rewrite Forall_forall in Fa. apply Fa in I. lia.
  - rewrite waits_spec. clear -F B N1 N2. induction F as [|x n waiting aids E F IH]; cbn; [reflexivity|]. apply find_some in E. rewrite IH. split; intros [H|H]; auto; left.
    + subst n. exact (unique_aid _ _ _ a N2 E B).
    + subst x. exact (unique_in _ _ _ _ N1 E B).
Qed.
End F.

(** ** An example *)
Definition lowest_free (used : list nat) : option nat := find (fun a => negb (existsb (Nat.eqb a) used)) (seq 1 2007).
Lemma lowest_free_chooses : chooses lowest_free.
Proof.
  intros used a E. unfold lowest_free in E. apply List.find_some in E as (I & N). apply in_seq in I. split; [|lia].
  intros J. apply negb_true_iff in N. rewrite <- not_true_iff_false, existsb_exists in N. apply N. exists a. split; [exact J|apply Nat.eqb_refl].
Qed.
Definition ex_setup : Setup := mkSetup 300 0x120 0x31 10 [0; 4; 72; 111; 109; 101]%N (repeat 0%N 60).
Definition ex_arms {cfg : Cfg} : list (nat * Arm Heard) :=
  [(4, mkArm _ _ (mgmt_kind AssociationRequest) (rd_mgmt AssociationRequest) hear_request);
   (5, mkArm _ _ (mgmt_kind AssociationResponse) (rd_mgmt AssociationResponse) hear_response)].
Lemma ex_listening {cfg : Cfg} : listening ex_arms.
Proof.
  split; [|split; [left; reflexivity|right; left; reflexivity]]. split; [cbn; repeat constructor; cbn; intuition discriminate|].
  repeat constructor; eexists; reflexivity.
Qed.
Definition ok_of (r : Res serr bytes) : bytes := match r with Ok b => b | _ => [] end.
(** two stations ask; the access point hears the second one first, and the first one twice; both hear everything *)
Definition ex_history {cfg : Cfg} : list Happening :=
  let s1 := repeat 1%N 6 in let s2 := repeat 3%N 6 in let bss := repeat 2%N 6 in
  let f1 := ok_of (request bss s1 ex_setup) in let f2 := ok_of (request bss s2 ex_setup) in
  let g1 := ok_of (response bss s1 ex_setup (Some 2)) in let g2 := ok_of (response bss s2 ex_setup (Some 1)) in
  [Asks s1 ex_setup; Asks s2 ex_setup; ApHears f2 ex_setup; ApHears f1 ex_setup; StaHears s1 g2; StaHears s1 g1; StaHears s2 g2; ApHears f1 ex_setup; StaHears s2 g1].
Lemma ex_setup_ok {cfg : Cfg} : ok_choice ex_setup.
Proof. split; [reflexivity|]. split; [reflexivity|]. split; [reflexivity|]. split; [reflexivity|]. split; [now apply wf_bytesb_spec|]. split; [right; discriminate|cbn; lia]. Qed.
Definition membership (w : World) (e : Happening) : bool :=
  match e with Asks _ _ => true | ApHears b _ | StaHears _ b => existsb (same b) (w_air w) end.
Fixpoint follow {cfg : Cfg} (l : list (nat * Arm Heard)) pick bss (w : World) (es : list Happening) : option World :=
  match es with
  | [] => Some w
  | e :: rest => if membership w e then match step l pick bss w e with Ok w1 => follow l pick bss w1 rest | _ => None end else None
  end.
Lemma follow_runs {cfg : Cfg} l pick bss es : forall w w', Forall (fun e => match e with Asks sta s => address sta /\ ok_choice s | ApHears _ s => ok_choice s | StaHears _ _ => True end) es ->
  follow l pick bss w es = Some w' -> runs l pick bss w es w'.
Proof.
  induction es as [|e es IH]; intros w w' F E; cbn in E; [injection E as <-; constructor|]. inversion F as [|? ? Fe Fs]; subst.
  destruct (membership w e) eqn:M; [|discriminate]. destruct (step l pick bss w e) as [w1| |] eqn:S; try discriminate.
  apply (runs_more l pick bss w e w1); [|exact S|now apply IH].
  assert (X : forall b, existsb (same b) (w_air w) = true -> genuine l w b).
  { intros b Eb. left. left. apply existsb_exists in Eb as (x & I & Ex). apply same_spec in Ex. now subst x. }
  destruct e as [sta s|b s|sta b]; cbn in *; auto.
Qed.
Lemma ex_runs {cfg : Cfg} : exists w, runs ex_arms lowest_free (repeat 2%N 6) nobody ex_history w /\
  w_table w = [(repeat 1%N 6, 2); (repeat 3%N 6, 1)] /\ believes w (repeat 1%N 6) = Some 2 /\ believes w (repeat 3%N 6) = Some 1.
Proof.
  assert (E : option_map (fun w => (w_table w, believes w (repeat 1%N 6), believes w (repeat 3%N 6))) (follow ex_arms lowest_free (repeat 2%N 6) nobody ex_history)
    = Some ([(repeat 1%N 6, 2); (repeat 3%N 6, 1)], Some 2, Some 1)) by (destruct cfg as [[] [] []]; vm_compute; reflexivity).
  destruct (follow ex_arms lowest_free (repeat 2%N 6) nobody ex_history) as [w|] eqn:F; [|discriminate E]. cbn [option_map] in E. injection E as E1 E2 E3.
  exists w. split; [|auto]. apply follow_runs; [|exact F].
  assert (A : forall b, (b < 256)%N -> address (repeat b 6)) by (intros b B; split; [reflexivity|cbn; repeat (constructor; [exact B|]); constructor]).
  pose proof ex_setup_ok as O. unfold ex_history. cbv zeta.
  apply Forall_cons; [exact (conj (A 1%N eq_refl) O)|]. apply Forall_cons; [exact (conj (A 3%N eq_refl) O)|]. apply Forall_cons; [exact O|]. apply Forall_cons; [exact O|].
  apply Forall_cons; [exact I|]. apply Forall_cons; [exact I|]. apply Forall_cons; [exact I|]. apply Forall_cons; [exact O|]. apply Forall_cons; [exact I|apply Forall_nil].
Qed.
Lemma bss_address : address (repeat 2%N 6).
Proof. split; [reflexivity|now apply wf_bytesb_spec]. Qed.
