(** Proofs about stations that set their clocks by each other's beacons. *)
From Verif Require Import Base SpecBase BaseFacts Common Elements SpecElements ElementsFacts SpecElementTypes Mgmt SpecMgmt MgmtFacts MgmtFacts2 Generic SpecGeneric SpecDelivery DeliveryFacts
  SpecNoise NoiseFacts FcsFacts ScanFacts2 RatesFacts2 SpecClocks.

(** ** Clocks *)
Lemma set_same o r x : set_clock o r x r = x.
Proof. unfold set_clock. destruct (Nat.eq_dec r r); congruence. Qed.
Lemma set_other o r x s : s <> r -> set_clock o r x s = o s.
Proof. unfold set_clock. destruct (Nat.eq_dec s r); congruence. Qed.
Lemma take_later_spec x got : forall o r, (take_later x got o r = o r \/ In r got /\ take_later x got o r = x) /\ (o r <= take_later x got o r)%N /\
  (In r got -> (x <= take_later x got o r)%N).
Proof.
  induction got as [|q got IH]; intros o r; cbn [take_later].
  - split; [now left|]. split; [lia|intros []].
  - destruct (IH (set_clock o q (N.max (o q) x)) r) as (A & B & C). destruct (Nat.eq_dec r q) as [->|D].
    + rewrite set_same in *. split; [|split; [lia|intros _; lia]].
      destruct A as [A|[A1 A2]]; [|right; split; [now left|exact A2]].
      rewrite A. destruct (N.max_spec (o q) x) as [[_ E]|[_ E]]; rewrite E; [right; split; [now left|reflexivity]|now left].
    + rewrite (set_other _ _ _ _ D) in *. split; [|split; [exact B|]].
      * destruct A as [A|[A1 A2]]; [now left|right; split; [now right|exact A2]].
      * intros [E|I]; [congruence|now apply C].
Qed.
Fixpoint finally (o : Clocks) (told : list (nat * list nat)) : Clocks :=
  match told with [] => o | (s, got) :: rest => finally (take_later (o s) got o) rest end.
Lemma finally_spec told : forall o b, (exists a, came_to told a b /\ finally o told b = o a) /\ forall a, came_to told a b -> (o a <= finally o told b)%N.
Proof.
  induction told as [|(s, got) told IH]; intros o b; cbn [finally came_to].
  - split; [now exists b|]. intros a ->. lia.
  - destruct (IH (take_later (o s) got o) b) as ((a & Ca & Ea) & U). split.
    + destruct (take_later_spec (o s) got o a) as ([E|[I E]] & _ & _).
      * exists a. split; [now left|congruence].
      * exists s. split; [right; split; [reflexivity|]; now exists a|congruence].
    + intros x [C|(-> & r & I & C)].
      * destruct (take_later_spec (o s) got o x) as (_ & L & _). specialize (U x C). lia.
      * destruct (take_later_spec (o s) got o r) as (_ & _ & L). specialize (U r C). specialize (L I). lia.
Qed.
Lemma came_self told b : came_to told b b.
Proof. induction told as [|(s, got) told IH]; cbn [came_to]; [reflexivity|now left]. Qed.

Section F.
Context {cfg : Cfg}.
Lemma beacon_is_sent l network timestamp f : In (beacon_arm network) l -> beacon_at network timestamp f -> sent l f (Some timestamp).
Proof.
  intros I [h w es buf buf' n Hh Hb Hw Ht We Wr EO Room E].
  replace (Some timestamp) with (hear_time network (h, with_beacon w es)).
  - exact (sent_mgmt l _ _ Beacon 0 8 ok_beacon fixed_beacon bb_elements with_beacon False (hear_time network) h w es buf buf' n beacon_type I Hh Hw We Wr (or_intror EO) Room E).
  - unfold hear_time. cbn [fst snd]. destruct (list_eq_dec N.eq_dec (mh_bssid h) network); [|contradiction]. cbn [with_beacon bb_timestamp]. now rewrite Ht.
Qed.
Lemma strange_is_sent l network network' timestamp f : In (beacon_arm network) l -> beacon_at network' timestamp f -> network' <> network -> sent l f None.
Proof.
  intros I [h w es buf buf' n Hh Hb Hw Ht We Wr EO Room E] Ne.
  replace (@None N) with (hear_time network (h, with_beacon w es)).
  - exact (sent_mgmt l _ _ Beacon 0 8 ok_beacon fixed_beacon bb_elements with_beacon False (hear_time network) h w es buf buf' n beacon_type I Hh Hw We Wr (or_intror EO) Room E).
  - unfold hear_time. cbn [fst snd]. destruct (list_eq_dec N.eq_dec (mh_bssid h) network); [congruence|reflexivity].
Qed.
Lemma damaged_nothing {A} l f (a : A) b : typed_arms l -> sent l f a -> damaged f b -> exists e, match_frames b (Some true) (map snd l) = Err e.
Proof.
  intros TA S D. destruct (refused f b D (runs_valid _ _ _ (sent_runs l f a TA S))) as (_ & _ & _ & M). exact (M A (map snd l)).
Qed.
Lemma all_listen l f x t arriving got : typed_arms l -> sent l f (Some (x + t)%N) -> arrives f arriving got -> forall o,
  listen_all (map snd l) t o arriving = Ok (take_later x got o).
Proof.
  intros TA S H. induction H as [|r arriving got H IH|r b arriving got D H IH]; intros o; cbn [listen_all take_later]; [reflexivity| |]; unfold listen.
  - rewrite (sent_runs l f _ TA S). cbn [rbind]. rewrite IH.
    replace (if (o r + t <? x + t)%N then (x + t - t)%N else o r) with (N.max (o r) x); [reflexivity|]. destruct (N.ltb_spec (o r + t) (x + t)); lia.
  - destruct (damaged_nothing l f _ b TA S D) as (e & ->). cbn [rbind]. apply IH.
Qed.
Lemma others_listen l f t arriving got : typed_arms l -> sent l f None -> arrives f arriving got -> forall o,
  listen_all (map snd l) t o arriving = Ok o.
Proof.
  intros TA S H. induction H as [|r arriving got H IH|r b arriving got D H IH]; intros o; cbn [listen_all]; [reflexivity| |]; unfold listen.
  - rewrite (sent_runs l f _ TA S). cbn [rbind]. apply IH.
  - destruct (damaged_nothing l f _ b TA S D) as (e & ->). cbn [rbind]. apply IH.
Qed.
Lemma runs_finally l network o air told : typed_arms l -> In (beacon_arm network) l -> history l network o air told ->
  network_runs (map snd l) o air = Ok (finally o told).
Proof.
  intros TA I H. induction H as [o|o t s f arriving got air told B A H IH|o t f arriving got air told S A H IH|o t f network' ts arriving got air told B N A H IH]; cbn [network_runs finally]; [reflexivity| | |].
  - rewrite (all_listen l f (o s) t arriving got TA (beacon_is_sent _ _ _ _ I B) A). exact IH.
  - rewrite (others_listen l f t arriving got TA S A). exact IH.
  - rewrite (others_listen l f t arriving got TA (strange_is_sent l network network' ts f I B N) A). exact IH.
Qed.
Theorem clocks_known l network o air told : typed_arms l -> In (beacon_arm network) l -> history l network o air told ->
  exists o', network_runs (map snd l) o air = Ok o' /\
    forall b, (exists a, came_to told a b /\ o' b = o a) /\ forall a, came_to told a b -> (o a <= o' b)%N.
Proof. intros TA I H. exists (finally o told). split; [exact (runs_finally l network o air told TA I H)|]. apply finally_spec. Qed.
Theorem clocks_agree l network o air told first : typed_arms l -> In (beacon_arm network) l -> history l network o air told -> (forall s, (o s <= o first)%N) ->
  exists o', network_runs (map snd l) o air = Ok o' /\
    forall b, (o b <= o' b <= o first)%N /\ (came_to told first b -> o' b = o first).
Proof.
  intros TA I H F. destruct (clocks_known l network o air told TA I H) as (o' & R & K). exists o'. split; [exact R|]. intros b. destruct (K b) as ((a & Ca & Ea) & U).
  split; [split; [apply U, came_self|rewrite Ea; apply F]|]. intros C. specialize (U first C). specialize (F a). lia.
Qed.
(** a beacon can be sent whenever the clock shows a number of 64 bits *)
Theorem can_beacon network timestamp : address network -> u64 timestamp -> exists f, beacon_at network timestamp f.
Proof.
  intros An Ut. set (h := mkMH 0 0 (repeat 255%N 6) (repeat 11%N 6) network 0x1230 None). set (es := [0; 2; 72; 111]%N). set (w := mkBeacon timestamp 100 17 (c_read_elements es)).
  set (buf := repeat 0%N (length (enc_frame true (enc_mgmt 8 h (fixed_beacon w ++ es))) + slack)).
  assert (Room : length (enc_frame true (enc_mgmt 8 h (fixed_beacon w ++ es))) + slack <= length buf) by (unfold buf; rewrite repeat_length; constructor).
  assert (Hh : ok_mgmt_header h) by (repeat split; cbn; try reflexivity; try apply An; repeat constructor).
  assert (Hw : ok_beacon w) by (split; [exact Ut|split; reflexivity]).
  assert (We : wf_bytes es) by (apply wf_bytesb_spec; reflexivity).
  assert (EO : end_ok es) by (right; discriminate).
  pose proof (c_read_elements_W es) as Wr.
  assert (TA : typed_arms [beacon_arm network]).
  { split; [cbn; repeat constructor; cbn; intuition discriminate|]. repeat constructor; eexists; reflexivity. }
  destruct (type_delivered _ _ _ _ _ _ _ _ _ _ beacon_type _ [beacon_arm network] _ h w es true buf TA (or_introl eq_refl) Hh Hw We Wr (or_intror EO) Room) as (buf' & n & E & _).
  exists (firstn n buf'). exact (written_at network timestamp h w es buf buf' n Hh eq_refl Hw eq_refl We Wr EO Room E).
Qed.
End F.
