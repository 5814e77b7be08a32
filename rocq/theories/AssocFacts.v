(** Facts about association. *)
From Verif Require Import Base SpecBase BaseFacts Enums EnumsFacts Common CommonFacts AidFacts Elements SpecElements SpecElementTypes ElementsFacts Mgmt SpecMgmt MgmtFacts MgmtFacts2
  Generic SpecGeneric SpecDelivery DeliveryFacts SpecNoise NoiseFacts Tim SpecTim SpecPowerSave PowerSaveFacts PowerSaveFacts2 SpecAssoc.

Lemma same_spec a b : same a b = true <-> a = b.
Proof. unfold same. destruct (list_eq_dec N.eq_dec a b); split; congruence. Qed.
Lemma find_some sta l a : find_station sta l = Some a -> In (sta, a) l.
Proof.
  unfold find_station. destruct (find _ l) as [[b n]|] eqn:E; [|discriminate]. cbn. intros [= <-]. apply find_some in E as (I & S). cbn in S.
  apply same_spec in S. now subst b.
Qed.
Lemma find_none sta l : find_station sta l = None -> ~ In sta (map fst l).
Proof.
  unfold find_station. destruct (find _ l) as [x|] eqn:E; [discriminate|]. intros _ I. apply in_map_iff in I as (x & Ex & I).
  pose proof (find_none _ _ E x I) as N. cbn in N. rewrite <- not_true_iff_false, same_spec in N. contradiction.
Qed.
Lemma unique_in (l : list (bytes * nat)) sta (a b : nat) : NoDup (map fst l) -> In (sta, a) l -> In (sta, b) l -> a = b.
Proof.
  induction l as [|[s n] l IH]; cbn; intros N I J; [destruct I|]. inversion N as [|? ? NI N']; subst.
  destruct I as [I|I], J as [J|J]; try congruence; [..|now apply IH].
  - injection I as -> ->. exfalso. apply NI. change sta with (fst (sta, b)). now apply in_map.
  - injection J as -> ->. exfalso. apply NI. change sta with (fst (sta, a)). now apply in_map.
Qed.
Lemma unique_aid (l : list (bytes * nat)) s t (a : nat) : NoDup (map snd l) -> In (s, a) l -> In (t, a) l -> s = t.
Proof.
  induction l as [|[x n] l IH]; cbn; intros N I J; [destruct I|]. inversion N as [|? ? NI N']; subst.
  destruct I as [I|I], J as [J|J]; try congruence; [..|now apply IH].
  - injection I as -> ->. exfalso. apply NI. change a with (snd (t, a)). now apply in_map.
  - injection J as -> ->. exfalso. apply NI. change a with (snd (s, a)). now apply in_map.
Qed.
Lemma find_in sta l a : NoDup (map fst l) -> In (sta, a) l -> find_station sta l = Some a.
Proof.
  intros N I. destruct (find_station sta l) as [b|] eqn:E.
  - f_equal. apply (unique_in l sta); [exact N|now apply find_some|exact I].
  - exfalso. apply (find_none _ _ E). change sta with (fst (sta, a)). now apply in_map.
Qed.

Section F.
Context {cfg : Cfg}.
Variables (l : list (nat * Arm Heard)) (pick : list nat -> option nat) (bss : bytes).
Hypotheses (LI : listening l) (CH : chooses pick) (AB : address bss).
Lemma plain_header d ra ta seq : u16 d -> address ra -> address ta -> u16 seq -> ok_mgmt_header (mkMH 0 d ra ta bss seq None).
Proof. intros D R T S. exact (conj eq_refl (conj D (conj R (conj T (conj AB (conj S eq_refl)))))). Qed.
Lemma room sub d ra ta seq fixed (s : Setup) : address ra -> address ta -> length fixed <= 6 -> ok_choice s ->
  length (enc_frame true (enc_mgmt sub (mkMH 0 d ra ta bss seq None) (fixed ++ se_elements s))) + slack <= length (se_buffer s).
Proof.
  intros (R & _) (T & _) F (_ & _ & _ & _ & _ & _ & L). destruct AB as (B & _). unfold enc_frame, enc_mgmt, enc_mgmt_header, enc_fcf. cbn [mh_duration mh_ra mh_ta mh_bssid mh_seq mh_ht].
  rewrite !app_length, !le_bytes_length, R, T, B. cbn [length]. unfold slack. destruct strict_end; lia.
Qed.
Lemma request_sent sta s : address sta -> ok_choice s -> exists f, request bss sta s = Ok f /\ sent l f (HRequest bss sta).
Proof.
  intros A O. pose proof O as (D & S & C & I & W & E & L). destruct LI as (TA & I4 & I5).
  set (w := mkAssocReq (se_caps s) (se_interval s) (c_bytes (se_elements s))).
  pose proof (plain_header _ bss sta _ D AB A S) as Hh. assert (ok : ok_assoc_req w) by (split; assumption).
  pose proof (room 0 (se_duration s) bss sta (se_seq s) (fixed_assoc_req w) s AB A ltac:(unfold fixed_assoc_req; rewrite app_length, !le_bytes_length; lia) O) as R.
  pose proof (type_delivered _ _ _ _ _ _ _ _ _ _ association_request_type) as D'.
  destruct (D' _ l hear_request _ w (se_elements s) true (se_buffer s) TA I4 Hh ok W (WritesT_Writes _ _ (c_bytes_T (se_elements s))) (or_intror E) R) as (buf' & n & Wr & _).
  exists (firstn n buf'). split; [unfold request; fold w; now rewrite Wr|].
  exact (sent_mgmt l _ _ AssociationRequest _ _ _ _ _ _ _ hear_request _ w _ _ _ _ association_request_type I4 Hh ok W (WritesT_Writes _ _ (c_bytes_T (se_elements s))) (or_intror E) R Wr).
Qed.
Lemma aid_carried a : 1 <= a <= 2007 -> exists x, aid_new_checked (N.of_nat a) = Some x /\ ok_aid x /\ N.to_nat (aid_aid x) = a.
Proof.
  intros A. destruct (aid_checked_spec (N.of_nat a)) as (S & Ex). assert (M : (N.of_nat a mod 16384 = N.of_nat a)%N) by (apply N.mod_small; lia).
  rewrite M in *. destruct (proj2 Ex ltac:(lia)) as (x & E). exists x. split; [exact E|]. split; [exact (checked_valid _ _ E)|].
  destruct (S x E) as (V & _). rewrite V. lia.
Qed.
Lemma response_sent sta s aid : address sta -> ok_choice s -> match aid with Some a => 1 <= a <= 2007 | None => True end ->
  exists f, response bss sta s aid = Ok f /\ sent l f (HResponse sta bss aid).
Proof.
  intros A O Ha. pose proof O as (D & S & C & I & W & E & L). destruct LI as (TA & I4 & I5).
  set (w := mkAssocResp (se_caps s) (match aid with Some _ => St_Success | None => St_DeniedNoMoreStas end)
                       (match aid with Some a => aid_new_checked (N.of_nat a) | None => None end) (c_bytes (se_elements s))).
  pose proof (plain_header _ sta bss _ D A AB S) as Hh.
  assert (ok : ok_assoc_resp w /\ hear_response (mkMH 0 (se_duration s) sta bss bss (se_seq s) None, with_assoc_resp w (se_elements s)) = HResponse sta bss aid).
  { unfold w, ok_assoc_resp, hear_response. cbn [ar_capabilities ar_status ar_aid with_assoc_resp fst snd mh_ra mh_ta]. destruct aid as [a|].
    - destruct (aid_carried a Ha) as (x & -> & Ox & Nx). split; [exact (conj C (conj eq_refl (conj eq_refl Ox)))|]. now rewrite Nx.
    - split; [exact (conj C (conj eq_refl (conj eq_refl Logic.I)))|reflexivity]. }
  destruct ok as (ok & <-).
  pose proof (room 1 (se_duration s) sta bss (se_seq s) (fixed_assoc_resp w) s A AB ltac:(unfold fixed_assoc_resp; rewrite !app_length, !le_bytes_length; lia) O) as R.
  pose proof (type_delivered _ _ _ _ _ _ _ _ _ _ association_response_type) as D'.
  destruct (D' _ l hear_response _ w (se_elements s) true (se_buffer s) TA I5 Hh ok W (WritesT_Writes _ _ (c_bytes_T (se_elements s))) (or_intror E) R) as (buf' & n & Wr & _).
  exists (firstn n buf'). split; [unfold response; fold w; now rewrite Wr|].
  exact (sent_mgmt l _ _ AssociationResponse _ _ _ _ _ _ _ hear_response _ w _ _ _ _ association_response_type I5 Hh ok W (WritesT_Writes _ _ (c_bytes_T (se_elements s))) (or_intror E) R Wr).
Qed.

(** ** The invariant *)
Definition good_frame (table : list (bytes * nat)) (f : bytes) : Prop :=
  (exists sta, address sta /\ sent l f (HRequest bss sta)) \/
  (exists sta aid, sent l f (HResponse sta bss aid) /\ match aid with Some a => In (sta, a) table | None => True end).
Definition good (w : World) : Prop :=
  sound_table (w_table w) /\ Forall (fun x => In x (w_table w)) (w_known w) /\ Forall (good_frame (w_table w)) (w_air w).
Lemma good_nobody : good nobody.
Proof. split; [split; [constructor|split; constructor]|]. split; constructor. Qed.
Lemma heard_what w b : good w -> genuine l w b ->
  (exists sta, address sta /\ match_frames b (Some true) (map snd l) = Ok (HRequest bss sta)) \/
  (exists sta aid, match_frames b (Some true) (map snd l) = Ok (HResponse sta bss aid) /\ match aid with Some a => In (sta, a) (w_table w) | None => True end) \/
  match_frames b (Some true) (map snd l) = Ok HOther \/ (exists e, match_frames b (Some true) (map snd l) = Err e).
Proof.
  intros (_ & _ & GF) G. pose proof (proj1 LI) as TA. rewrite Forall_forall in GF. destruct G as [[I|S]|(f & O & D)].
  - destruct (GF b I) as [(sta & A & S)|(sta & aid & S & T)]; [left|right; left].
    + exists sta. split; [exact A|]. exact (sent_runs l b _ TA S).
    + exists sta, aid. split; [exact (sent_runs l b _ TA S)|exact T].
  - right. right. left. exact (sent_runs l b _ TA S).
  - right. right. right. assert (X : exists a, sent l f a).
    { destruct O as [I|S]; [|eauto]. destruct (GF f I) as [(sta & _ & S)|(sta & aid & S & _)]; eauto. }
    destruct X as (a & S). destruct (refused f b D (runs_valid _ _ _ (sent_runs l f a TA S))) as (_ & _ & _ & M). apply M.
Qed.
Lemma good_more table sta a f : good_frame table f -> good_frame ((sta, a) :: table) f.
Proof.
  intros [H|(s & aid & S & T)]; [now left|right]. exists s, aid. split; [exact S|]. destruct aid; [now right|exact Logic.I].
Qed.
Lemma assigned table sta : sound_table table -> let '(t, aid) := assign pick table sta in
  sound_table t /\ (forall x, In x table -> In x t) /\ (forall f, good_frame table f -> good_frame t f) /\
  match aid with Some a => In (sta, a) t /\ 1 <= a <= 2007 | None => True end.
Proof.
  intros S. pose proof S as (N1 & N2 & F). unfold assign. destruct (find_station sta table) as [a|] eqn:E.
  - split; [exact S|]. split; [auto|]. split; [auto|]. pose proof (find_some _ _ _ E) as I. split; [exact I|].
    rewrite Forall_forall in F. apply F. change a with (snd (sta, a)). now apply in_map.
  - destruct (pick (map snd table)) as [a|] eqn:P; [|auto]. destruct (CH _ _ P) as (NI & R). split; [|split; [intros; now right|split; [intros; now apply good_more|split; [now left|exact R]]]].
    split; [cbn; constructor; [now apply find_none|exact N1]|]. split; [cbn; now constructor|]. cbn. now constructor.
Qed.
Lemma one_step w e : good w -> possible l w e -> exists w1, step l pick bss w e = Ok w1 /\ good w1 /\ (forall x, In x (w_table w) -> In x (w_table w1)).
Proof.
  intros G P. pose proof G as (ST & KN & GF). destruct e as [sta s|b s|sta b]; cbn [possible step] in *.
  - destruct P as (A & O). destruct (request_sent sta s A O) as (f & E & S). rewrite E. cbn [rbind]. eexists. split; [reflexivity|].
    split; [|cbn; auto]. split; [exact ST|]. split; [exact KN|]. cbn [w_air w_table]. constructor; [left; eauto|exact GF].
  - destruct P as (P & O). destruct (heard_what w b G P) as [(sta & A & ->)|[(sta & aid & -> & _)|[->|(e & ->)]]]; [|exists w; auto..].
    replace (same bss bss) with true by (symmetry; now apply same_spec).
    pose proof (assigned (w_table w) sta ST) as X. destruct (assign pick (w_table w) sta) as [t aid]. destruct X as (ST' & M & GM & AI).
    destruct (response_sent sta s aid A O) as (f & E & S); [destruct aid; [exact (proj2 AI)|exact Logic.I]|]. rewrite E. cbn [rbind]. eexists. split; [reflexivity|].
    split; [|exact M]. split; [exact ST'|]. split; [eapply Forall_impl; [|exact KN]; exact M|]. cbn [w_air w_table].
    constructor; [|eapply Forall_impl; [|exact GF]; exact GM]. right. exists sta, aid. split; [exact S|]. destruct aid; [exact (proj1 AI)|exact Logic.I].
  - destruct (heard_what w b G P) as [(x & A & ->)|[(x & aid & -> & T)|[->|(e & ->)]]]; [exists w; auto| |exists w; auto..].
    destruct aid as [a|]; [|exists w; auto]. destruct (same x sta && same bss bss) eqn:E; [|exists w; auto]. apply andb_true_iff in E as (E & _). apply same_spec in E. subst x.
    eexists. split; [reflexivity|]. split; [|cbn; auto]. split; [exact ST|]. split; [|exact GF]. cbn. constructor; [exact T|exact KN].
Qed.
Lemma runs_good w es w' : runs l pick bss w es w' -> good w -> good w' /\ forall x, In x (w_table w) -> In x (w_table w').
Proof.
  intros R. induction R as [w|w e w1 es w2 P E R IH]; intros G; [auto|]. destruct (one_step w e G P) as (w1' & E' & G1 & M).
  rewrite E in E'. injection E' as <-. destruct (IH G1) as (G2 & M2). split; [exact G2|auto].
Qed.
End F.
(** ** Theorems *)
Theorem agree {cfg : Cfg} l pick bss es w : listening l -> chooses pick -> address bss -> runs l pick bss nobody es w ->
  sound_table (w_table w) /\ (forall sta a, believes w sta = Some a -> find_station sta (w_table w) = Some a) /\
  (forall s t a, believes w s = Some a -> believes w t = Some a -> s = t).
Proof.
  intros LI CH AB R. destruct (runs_good l pick bss LI CH AB _ _ _ R (good_nobody l bss)) as ((ST & KN & _) & _). pose proof ST as (N1 & N2 & _).
  assert (K : forall sta a, believes w sta = Some a -> In (sta, a) (w_table w)).
  { intros sta a B. apply find_some in B. rewrite Forall_forall in KN. exact (KN _ B). }
  split; [exact ST|]. split.
  - intros sta a B. apply find_in; auto.
  - intros s t a Bs Bt. apply (unique_aid (w_table w) s t a N2); auto.
Qed.
Theorem goes_on {cfg : Cfg} l pick bss es w e : listening l -> chooses pick -> address bss -> runs l pick bss nobody es w -> possible l w e ->
  exists w1, step l pick bss w e = Ok w1.
Proof.
  intros LI CH AB R P. destruct (runs_good l pick bss LI CH AB _ _ _ R (good_nobody l bss)) as (G & _).
  destruct (one_step l pick bss LI CH AB w e G P) as (w1 & E & _). eauto.
Qed.
