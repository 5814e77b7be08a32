(** Facts about mesh links. *)
From Verif Require Import Base SpecBase BaseFacts Enums Common Elements SpecElements ElementsFacts ElementTypes SpecElementTypes ElementTypesFacts ElementTypesFacts2 ElementTypesFacts3
  ElementTypesFacts4 Mgmt SpecMgmt MgmtFacts MgmtFacts2 Generic SpecGeneric SpecDelivery DeliveryFacts SpecNoise NoiseFacts SpecPeering.

Lemma is_addr_spec a b : is_addr a b = true <-> a = b.
Proof. unfold is_addr. destruct (list_eq_dec N.eq_dec a b); split; congruence. Qed.
Lemma int16_wf {cfg : Cfg} v : wf_bytes (int16 v).
Proof. unfold int16. destruct native_le; [apply le_bytes_wf|apply be_bytes_wf]. Qed.
Lemma int16_len {cfg : Cfg} v : length (int16 v) = 2.
Proof. unfold int16. destruct native_le; [apply le_bytes_length|apply be_bytes_length]. Qed.
Lemma elements_app a b : enc_elements (a ++ b) = enc_elements a ++ enc_elements b.
Proof. unfold enc_elements. now rewrite map_app, concat_app. Qed.

Section F.
Context {cfg : Cfg}.
Lemma chain_is s x : chain_items (peering_chain s x) = map RawItem (co_front s) ++ Typed (elem_of MeshPeeringElement x) :: map RawItem (co_back s).
Proof. unfold peering_chain. destruct (co_front s); rewrite chain_of_items; reflexivity. Qed.
Lemma others_written es : Forall no_peering es -> Forall2 item_element (map RawItem es) es /\ Forall wf_item (map RawItem es) /\ Forall fits es /\ wf_bytes (enc_elements es).
Proof.
  intros F. induction F as [|e es (T & _ & W & L) F (I1 & I2 & I3 & I4)]; cbn [map]; [split; [constructor|split; [constructor|split; constructor]]|].
  split; [constructor; [reflexivity|exact I1]|]. split; [constructor; [exact T|exact I2]|]. split; [constructor; [exact L|exact I3]|].
  unfold enc_elements. cbn [map concat]. apply Forall_app. split; [|exact I4]. constructor; [exact T|]. constructor; [lia|exact W].
Qed.
(** the chain, and what a receiver finds in it *)
Lemma chain_found s x local rest : ok_chosen s -> u16 local -> length rest <= 18 -> wf_bytes rest -> peering_is (co_protocol s) local rest x ->
  exists es, Writes (wr_chain (peering_chain s x)) es /\ wf_bytes es /\ end_ok es /\ length es <= length (enc_elements (co_front s)) + length (enc_elements (co_back s)) + 24 /\
    get_first_element MeshPeeringElement es = Ok (Some x).
Proof.
  intros (_ & _ & _ & _ & _ & OP & _ & Ff & Fb & EV & _) Hl Lr Wr PI.
  assert (Lr' : length rest <= 20) by lia. destruct (peering_written_read _ _ _ _ OP Hl Lr' PI) as (Wx & Mx & Rx).
  set (body := enc_peering (co_protocol s) local rest) in *.
  assert (Lb : length body = 4 + length rest) by (unfold body, enc_peering; rewrite !app_length, !int16_len; lia).
  assert (Wb : wf_bytes body) by (unfold body, enc_peering; apply Forall_app; split; [apply int16_wf|apply Forall_app; split; [apply int16_wf|exact Wr]]).
  destruct (others_written _ Ff) as (F1 & F2 & F3 & F4). destruct (others_written _ Fb) as (B1 & B2 & B3 & B4).
  set (raws := co_front s ++ element (Id 117) body :: co_back s). exists (enc_elements raws).
  assert (C1 : Forall2 item_element (chain_items (peering_chain s x)) raws).
  { rewrite chain_is. apply Forall2_app; [exact F1|]. constructor; [|exact B1]. exists (Id 117), body. split; [|reflexivity]. split; [reflexivity|]. split; [exact Mx|exact Wx]. }
  assert (C2 : Forall wf_item (chain_items (peering_chain s x))).
  { rewrite chain_is. apply Forall_app. split; [exact F2|]. constructor; [reflexivity|exact B2]. }
  assert (C3 : Forall fits raws).
  { apply Forall_app. split; [exact F3|]. constructor; [|exact B3]. unfold fits. cbn. lia. }
  assert (V : end_visible raws []).
  { destruct EV as [S|[S|S]]; [now left|congruence|]. right. right. unfold raws. rewrite rev_app_distr. cbn [rev].
    destruct (rev (co_back s)) as [|y z]; [|exact S]. cbn. intros Z. apply (f_equal (@length N)) in Z. rewrite Lb in Z. discriminate Z. }
  split; [now apply wr_chain_W|]. split; [|split; [|split]].
  - unfold raws. rewrite elements_app. apply Forall_app. split; [exact F4|]. unfold enc_elements. cbn [map concat]. apply Forall_app. split; [|exact B4].
    change (wf_bytes (117%N :: N.of_nat (length body) :: body)). constructor; [reflexivity|]. constructor; [rewrite Lb; lia|exact Wb].
  - right. unfold raws, enc_elements. destruct (co_front s); cbn; discriminate.
  - unfold raws. rewrite elements_app. unfold enc_elements at 2. cbn [map concat].
    change (enc_element (element (Id 117) body)) with (117%N :: N.of_nat (length body) :: body). rewrite !app_length. cbn [length]. fold (enc_elements (co_back s)).
    change (concat (map enc_element (co_back s))) with (enc_elements (co_back s)). lia.
  - unfold get_first_element. pose proof (raw_elements_enc raws [] C3 V iteration_end_nil) as R. rewrite app_nil_r in R. rewrite R. cbn [rbind].
    assert (M : Forall2 (fun a o => match_and_parse MeshPeeringElement a = Ok o) raws (map (fun _ => None) (co_front s) ++ Some x :: map (fun _ => None) (co_back s))).
    { assert (O : forall es, Forall no_peering es -> Forall2 (fun a o => match_and_parse MeshPeeringElement a = Ok o) es (map (fun _ => None) es)).
      { intros es F. induction F as [|e es (_ & N & _) F IH]; cbn [map]; constructor; [|exact IH]. unfold match_and_parse. cbn [et_id MeshPeeringElement element_id_matches].
        replace (117 =? re_type e)%N with false by (symmetry; apply N.eqb_neq; congruence). reflexivity. }
      apply Forall2_app; [now apply O|]. constructor; [|now apply O]. unfold match_and_parse, parse_raw_element. cbn [et_id MeshPeeringElement element_id_matches].
      rewrite (raw_element_body_match (Id 117) _ body Logic.I eq_refl). change (re_type (element (Id 117) body)) with 117%N. rewrite N.eqb_refl. cbn [rbind].
      rewrite pread0 by (intros Z; apply (f_equal (@length N)) in Z; rewrite Lb in Z; discriminate Z).
      cbn [et_read MeshPeeringElement]. rewrite Rx. reflexivity. }
    rewrite (find_map_res_spec _ _ _ M). f_equal. clear. induction (co_front s) as [|e f IH]; cbn [map app somes]; [reflexivity|exact IH].
Qed.
Variables (l : list (nat * Arm Said)) (link : bytes -> bytes -> N).
Hypotheses (LI : peers l) (LK : forall a b, u16 (link a b)).
Lemma mesh_header s ra ta : ok_chosen s -> address ra -> address ta -> ok_mgmt_header (mkMH 0 (co_duration s) ra ta (co_bssid s) (co_seq s) None).
Proof. intros (D & B & S & _) R T. exact (conj eq_refl (conj D (conj R (conj T (conj B (conj S eq_refl)))))). Qed.
Lemma mesh_room ra ta fixed es (s : Choice) : address ra -> address ta -> length fixed <= 8 -> ok_chosen s ->
  length es <= length (enc_elements (co_front s)) + length (enc_elements (co_back s)) + 24 ->
  length (enc_frame true (enc_mgmt 13 (mkMH 0 (co_duration s) ra ta (co_bssid s) (co_seq s) None) (fixed ++ es))) + slack <= length (co_buffer s).
Proof.
  intros (R & _) (T & _) F (_ & (B & _) & _ & _ & _ & _ & _ & _ & _ & _ & L) Le. unfold enc_frame, enc_mgmt, enc_mgmt_header, enc_fcf. cbn [mh_duration mh_ra mh_ta mh_bssid mh_seq mh_ht].
  rewrite !app_length, !le_bytes_length, R, T, B. cbn [length]. unfold slack. destruct strict_end; lia.
Qed.
Lemma pmk_wf pmk : ok_pmk pmk -> length (opt_bytes (fun k => k) pmk) <= 16 /\ wf_bytes (opt_bytes (fun k => k) pmk).
Proof. destruct pmk as [k|]; cbn; [intros (L & W); split; [lia|exact W]|intros _; split; [lia|constructor]]. Qed.
Lemma open_sent a b local s : address a -> address b -> u16 local -> ok_chosen s -> exists f, open_frame a b local s = Ok f /\ sent l f (SOpen b a local).
Proof.
  intros A B U O. pose proof O as (D & Bs & S & C & Ai & P & K & _). destruct LI as (TA & I9 & I10). destruct (pmk_wf _ K) as (Lk & Wk).
  destruct (open_variant (co_protocol s) local (co_pmk s) K) as (x & Ex & Px & Vx & _).
  destruct (chain_found s x local (enc_open (co_pmk s)) O U ltac:(unfold enc_open; lia) Wk Px) as (es & Wes & Wf & En & Le & G).
  set (w := mkOpen (co_caps s) (c_chain (peering_chain s x))).
  pose proof (mesh_header s b a O B A) as Hh. assert (ok : ok_open w) by exact C.
  pose proof (mesh_room b a (fixed_open w) es s B A ltac:(unfold fixed_open; rewrite app_length, !le_bytes_length; cbn [length]; lia) O Le) as R.
  pose proof (type_delivered _ _ _ _ _ _ _ _ _ _ peering_open_type) as D'.
  destruct (D' _ l hear_open _ w es true (co_buffer s) TA I9 Hh ok Wf Wes (or_intror En) R) as (buf' & n & Wr & _).
  exists (firstn n buf'). split; [unfold open_frame; rewrite Ex; cbn [rbind]; fold w; now rewrite Wr|].
  replace (SOpen b a local) with (hear_open (mkMH 0 (co_duration s) b a (co_bssid s) (co_seq s) None, with_open w es))
    by (unfold hear_open; cbn [with_open mo_elements snd fst]; rewrite G, Vx; reflexivity).
  exact (sent_mgmt l _ _ MeshPeeringOpen _ _ _ _ _ _ _ hear_open _ w _ _ _ _ peering_open_type I9 Hh ok Wf Wes (or_intror En) R Wr).
Qed.
Lemma confirm_sent a b local peer s : address a -> address b -> u16 local -> u16 peer -> ok_chosen s ->
  exists f, confirm_frame a b local peer s = Ok f /\ sent l f (SConfirm b a local peer).
Proof.
  intros A B U Up O. pose proof O as (D & Bs & S & C & Ai & P & K & _). destruct LI as (TA & I9 & I10). destruct (pmk_wf _ K) as (Lk & Wk).
  destruct (confirm_variant (co_protocol s) local peer (co_pmk s) Up K) as (x & Ex & Px & Vx & _).
  destruct (chain_found s x local (enc_confirm peer (co_pmk s)) O U) as (es & Wes & Wf & En & Le & G);
    [unfold enc_confirm; rewrite app_length, int16_len; lia|apply Forall_app; split; [apply int16_wf|exact Wk]|exact Px|].
  set (w := mkConfirm (co_caps s) (co_aid s) (c_chain (peering_chain s x))).
  pose proof (mesh_header s b a O B A) as Hh. assert (ok : ok_confirm w) by exact (conj C Ai).
  pose proof (mesh_room b a (fixed_confirm w) es s B A ltac:(unfold fixed_confirm; rewrite !app_length, !le_bytes_length; cbn [length]; lia) O Le) as R.
  pose proof (type_delivered _ _ _ _ _ _ _ _ _ _ peering_confirm_type) as D'.
  destruct (D' _ l hear_confirm _ w es true (co_buffer s) TA I10 Hh ok Wf Wes (or_intror En) R) as (buf' & n & Wr & _).
  exists (firstn n buf'). split; [unfold confirm_frame; rewrite Ex; cbn [rbind]; fold w; now rewrite Wr|].
  replace (SConfirm b a local peer) with (hear_confirm (mkMH 0 (co_duration s) b a (co_bssid s) (co_seq s) None, with_confirm w es))
    by (unfold hear_confirm; cbn [with_confirm mc_elements snd fst]; rewrite G, Vx; reflexivity).
  exact (sent_mgmt l _ _ MeshPeeringConfirm _ _ _ _ _ _ _ hear_confirm _ w _ _ _ _ peering_confirm_type I10 Hh ok Wf Wes (or_intror En) R Wr).
Qed.

(** ** The invariant *)
Definition sound_frame (m : Mesh) (f : bytes) : Prop :=
  (exists a b, address a /\ address b /\ sent l f (SOpen b a (link a b))) \/
  (exists n o, sent l f (SConfirm o n (link n o) (link o n)) /\ In (n, o, link o n) (m_opened m)).
Definition sound (m : Mesh) : Prop :=
  (forall a b x, In (a, b, x) (m_opened m) -> x = link b a) /\
  (forall a b x, In (a, b, x) (m_confirmed m) -> x = link b a /\ In (b, a, link a b) (m_opened m)) /\
  Forall (sound_frame m) (m_air m).
Lemma sound_start : sound no_links.
Proof. split; [intros ? ? ? []|]. split; [intros ? ? ? []|constructor]. Qed.
Lemma heard_mesh m b : sound m -> arrives l m b ->
  (exists x y, address x /\ address y /\ match_frames b (Some true) (map snd l) = Ok (SOpen y x (link x y))) \/
  (exists n o, match_frames b (Some true) (map snd l) = Ok (SConfirm o n (link n o) (link o n)) /\ In (n, o, link o n) (m_opened m)) \/
  match_frames b (Some true) (map snd l) = Ok SOther \/ (exists e, match_frames b (Some true) (map snd l) = Err e).
Proof.
  intros (_ & _ & GF) G. pose proof (proj1 LI) as TA. rewrite Forall_forall in GF. destruct G as [[I|S]|(f & O & D)].
  - destruct (GF b I) as [(x & y & A & B & S)|(n & o & S & T)]; [left|right; left].
    + exists x, y. split; [exact A|]. split; [exact B|]. exact (sent_runs l b _ TA S).
    + exists n, o. split; [exact (sent_runs l b _ TA S)|exact T].
  - right. right. left. exact (sent_runs l b _ TA S).
  - right. right. right. assert (X : exists a, sent l f a).
    { destruct O as [I|S]; [|eauto]. destruct (GF f I) as [(x & y & _ & _ & S)|(n & o & S & _)]; eauto. }
    destruct X as (a & S). destruct (refused f b D (runs_valid _ _ _ (sent_runs l f a TA S))) as (_ & _ & _ & M). apply M.
Qed.
Lemma one_mesh_step m e : sound m -> can_happen l m e -> exists m1, mesh_step l link m e = Ok m1 /\ sound m1.
Proof.
  intros G P. pose proof G as (GO & GC & GF). destruct e as [a b s|n b s]; cbn [can_happen mesh_step] in *.
  - destruct P as (A & B & O). destruct (open_sent a b (link a b) s A B (LK a b) O) as (f & E & S). rewrite E. cbn [rbind]. eexists. split; [reflexivity|].
    split; [exact GO|]. split; [exact GC|]. cbn [m_air]. constructor; [left; exists a, b; auto|exact GF].
  - destruct P as (P & O). destruct (heard_mesh m b G P) as [(x & y & A & B & ->)|[(x & y & -> & T)|[->|(e & ->)]]]; [| |exists m; auto..].
    + destruct (is_addr y n) eqn:E; [|exists m; auto]. apply is_addr_spec in E. subst y.
      destruct (confirm_sent n x (link n x) (link x n) s B A (LK _ _) (LK _ _) O) as (f & Ef & S). rewrite Ef. cbn [rbind]. eexists. split; [reflexivity|].
      split; [|split].
      * intros a c z [[= <- <- <-]|I]; [reflexivity|now apply GO].
      * cbn. intros a c z I. destruct (GC a c z I) as (E1 & E2). auto.
      * cbn [m_air]. constructor; [right; exists n, x; split; [exact S|now left]|]. eapply Forall_impl; [|exact GF]. intros g [H|(u & v & S' & T')]; [now left|right].
        exists u, v. split; [exact S'|now right].
    + destruct (is_addr y n && (link y x =? link n x)%N) eqn:E; [|exists m; auto]. apply andb_true_iff in E as (E & _). apply is_addr_spec in E. subst y.
      eexists. split; [reflexivity|]. split; [exact GO|]. split; [|exact GF]. cbn. intros a c z [[= <- <- <-]|I]; [split; [reflexivity|exact T]|now apply GC].
Qed.
Lemma mesh_sound m es m' : mesh_runs l link m es m' -> sound m -> sound m'.
Proof.
  intros R. induction R as [m|m e m1 es m2 P E R IH]; intros G; [exact G|]. destruct (one_mesh_step m e G P) as (m1' & E' & G1).
  rewrite E in E'. injection E' as <-. exact (IH G1).
Qed.
Lemma mesh_step_grows m e m1 : mesh_step l link m e = Ok m1 -> (forall f, In f (m_air m) -> In f (m_air m1)) /\
  (forall x, In x (m_opened m) -> In x (m_opened m1)) /\ (forall x, In x (m_confirmed m) -> In x (m_confirmed m1)).
Proof.
  destruct e as [a b s|n b s]; cbn [mesh_step].
  - destruct (open_frame a b (link a b) s) as [f| |]; cbn; try discriminate. intros [= <-]. cbn. auto.
  - destruct (match_frames b (Some true) (map snd l)) as [[ra ta local|ra ta local peer| |]| |]; try discriminate; try (intros [= <-]; auto).
    + destruct (is_addr ra n); [|intros [= <-]; auto]. destruct (confirm_frame n ta (link n ta) local s) as [f| |]; cbn; try discriminate. intros [= <-]. cbn. auto.
    + destruct (_ && _); intros [= <-]; cbn; auto.
Qed.
Lemma mesh_grows m es m' : mesh_runs l link m es m' -> (forall f, In f (m_air m) -> In f (m_air m')) /\
  (forall x, In x (m_opened m) -> In x (m_opened m')) /\ (forall x, In x (m_confirmed m) -> In x (m_confirmed m')).
Proof.
  intros R. induction R as [m|m e m1 es m2 P E R (I1 & I2 & I3)]; [auto|]. destruct (mesh_step_grows _ _ _ E) as (J1 & J2 & J3). auto 6.
Qed.
Lemma opened m es m' a b s : mesh_runs l link m es m' -> In (Opens a b s) es ->
  exists f, open_frame a b (link a b) s = Ok f /\ In f (m_air m') /\ address a /\ address b /\ ok_chosen s.
Proof.
  intros R. induction R as [m|m e m1 es m2 P E R IH]; intros I; [destruct I|]. destruct I as [->|I]; [|now apply IH].
  cbn [mesh_step can_happen] in *. destruct (open_frame a b (link a b) s) as [f| |] eqn:Ef; cbn in E; try discriminate E. injection E as <-.
  exists f. split; [reflexivity|]. split; [|exact P]. apply (proj1 (mesh_grows _ _ _ R)). now left.
Qed.
(** an open that arrives is answered, and the answer is accepted *)
Lemma half m a b s s2 s3 : sound m -> address a -> address b -> ok_chosen s2 -> ok_chosen s3 -> (exists f, open_frame a b (link a b) s = Ok f /\ In f (m_air m)) -> ok_chosen s ->
  exists f g m2, open_frame a b (link a b) s = Ok f /\ mesh_runs l link m [Hears b f s2; Hears a g s3] m2 /\
    In (b, a, link a b) (m_opened m2) /\ In (a, b, link b a) (m_confirmed m2).
Proof.
  intros G A B O2 O3 (f & Ef & J) O. destruct (open_sent a b (link a b) s A B (LK a b) O) as (f' & Ef' & Sf). rewrite Ef in Ef'. injection Ef' as <-.
  pose proof (proj1 LI) as TA. pose proof (sent_runs l f _ TA Sf) as Mf.
  destruct (confirm_sent b a (link b a) (link a b) s2 B A (LK _ _) (LK _ _) O2) as (g & Eg & Sg). pose proof (sent_runs l g _ TA Sg) as Mg.
  assert (Xa : is_addr a a = true) by now apply is_addr_spec. assert (Xb : is_addr b b = true) by now apply is_addr_spec.
  exists f, g, (mkMesh ((b, a, link a b) :: m_opened m) ((a, b, link b a) :: m_confirmed m) (g :: m_air m)). split; [exact Ef|]. split; [|split; now left].
  apply (mesh_more l link _ _ (mkMesh ((b, a, link a b) :: m_opened m) (m_confirmed m) (g :: m_air m))).
  - split; [left; left; exact J|exact O2].
  - cbn [mesh_step]. rewrite Mf, Xb, Eg. reflexivity.
  - eapply mesh_more; [|cbn [mesh_step]; rewrite Mg, Xa, N.eqb_refl; reflexivity|constructor]. split; [|exact O3]. left. left. now left.
Qed.
Lemma mesh_runs_app m es m1 es' m2 : mesh_runs l link m es m1 -> mesh_runs l link m1 es' m2 -> mesh_runs l link m (es ++ es') m2.
Proof. intros R. induction R as [m|m e m1 es m1' P E R IH]; intros R2; [exact R2|]. cbn. econstructor; eauto. Qed.
End F.
(** ** Theorems *)
Theorem links_agree {cfg : Cfg} l link es m a b x : peers l -> (forall a b, u16 (link a b)) -> mesh_runs l link no_links es m -> established m a b x ->
  x = link b a /\ In (b, a, link a b) (m_opened m).
Proof.
  intros LI LK R (_ & I). destruct (mesh_sound l link LI LK _ _ _ R (sound_start l link)) as (_ & GC & _). exact (GC a b x I).
Qed.
Theorem mesh_goes_on {cfg : Cfg} l link es m e : peers l -> (forall a b, u16 (link a b)) -> mesh_runs l link no_links es m -> can_happen l m e ->
  exists m1, mesh_step l link m e = Ok m1.
Proof.
  intros LI LK R P. destruct (one_mesh_step l link LI LK m e (mesh_sound l link LI LK _ _ _ R (sound_start l link)) P) as (m1 & E & _). eauto.
Qed.
Theorem links_made {cfg : Cfg} l link es m a b s t s2 : peers l -> (forall a b, u16 (link a b)) -> mesh_runs l link no_links es m ->
  In (Opens a b s) es -> In (Opens b a t) es -> ok_chosen s2 ->
  exists f g f' g' m2, open_frame a b (link a b) s = Ok f /\ open_frame b a (link b a) t = Ok f' /\
    mesh_runs l link m [Hears b f s2; Hears a g s2; Hears a f' s2; Hears b g' s2] m2 /\ established m2 a b (link b a) /\ established m2 b a (link a b).
Proof.
  intros LI LK R I1 I2 O. pose proof (mesh_sound l link LI LK _ _ _ R (sound_start l link)) as G.
  destruct (opened l link _ _ _ _ _ _ R I1) as (f0 & E0 & J0 & A & B & Os). destruct (opened l link _ _ _ _ _ _ R I2) as (f1 & E1 & J1 & _ & _ & Ot).
  destruct (half l link LI LK m a b s s2 s2 G A B O O (ex_intro _ f0 (conj E0 J0)) Os) as (f & g & m1 & Ef & R1 & H1 & H2).
  pose proof (mesh_grows l link _ _ _ R1) as (G1 & _).
  destruct (half l link LI LK m1 b a t s2 s2 (mesh_sound l link LI LK _ _ _ R1 G) B A O O (ex_intro _ f1 (conj E1 (G1 _ J1))) Ot) as (f' & g' & m2 & Ef' & R2 & H3 & H4).
  pose proof (mesh_grows l link _ _ _ R2) as (_ & G2 & G3).
  exists f, g, f', g', m2. split; [exact Ef|]. split; [exact Ef'|]. split; [exact (mesh_runs_app l link _ _ _ _ _ R1 R2)|]. split; split; auto.
Qed.
Theorem links_last {cfg : Cfg} l link m es m2 a b x : mesh_runs l link m es m2 -> established m a b x -> established m2 a b x.
Proof. intros R (H1 & H2). destruct (mesh_grows l link _ _ _ R) as (_ & G2 & G3). split; auto. Qed.
