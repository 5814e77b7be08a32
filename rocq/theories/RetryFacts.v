(** Proofs about retransmissions. *)
From Verif Require Import Base BaseFacts SpecBase Bits BitsFacts Crc SpecFcs Enums Common SpecCommon CommonFacts Elements SpecElements SpecElementTypes Mgmt SpecMgmt MgmtFacts2 MgmtFacts3 MgmtFacts5
  Data SpecData DataFacts DataFacts2 Generic SpecGeneric SpecPortable SpecDelivery DeliveryFacts SpecNoise NoiseFacts SpecPatch PatchFacts PatchFacts2 SpecRetry.

(** ** the receiver *)
Section Filter.
Context {X : Type} (got : nat -> Got X) (fresh : forall k, got_retry (got k) = false).
Let from k := got_from (got k).
Let number k := got_seq (got k).
Definition got_copy (c : Copy) : Got X := mkGot (from (copy_of c)) (number (copy_of c)) (copy_retry c) (got_what (got (copy_of c))).
(** the last copy from a transmitter *)
Definition remembers (memory : list (bytes * N)) (pre : list Copy) : Prop :=
  forall a, match recall memory a with
            | None => forall c, In c pre -> from (copy_of c) <> a
            | Some s => exists u c v, pre = u ++ c :: v /\ from (copy_of c) = a /\ number (copy_of c) = s /\ forall x, In x v -> from (copy_of x) <> a
            end.
Lemma filter_once : forall rest pre memory seen, marked (pre ++ rest) -> one_by_one from (pre ++ rest) -> numbered from number (pre ++ rest) ->
  remembers memory pre -> (forall k, In k seen <-> In k (map copy_of pre)) ->
  without_repeats memory (map got_copy rest) = map (fun k => got_what (got k)) (once seen (map copy_of rest)).
Proof.
  induction rest as [|d rest IH]; intros pre memory seen M O N R S; [reflexivity|].
  cbn [map without_repeats once]. unfold repeated. change (got_retry (got_copy d)) with (copy_retry d). change (got_from (got_copy d)) with (from (copy_of d)).
  change (got_seq (got_copy d)) with (number (copy_of d)). change (got_what (got_copy d)) with (got_what (got (copy_of d))).
  assert (E : pre ++ d :: rest = (pre ++ [d]) ++ rest) by (rewrite <- app_assoc; reflexivity).
  destruct (in_dec Nat.eq_dec (copy_of d) seen) as [I|I].
  - apply S, in_map_iff in I. destruct I as (c & Ec & I). apply in_split in I. destruct I as (u & v & ->).
    assert (Rt : copy_retry d = true). { apply (M u c v d rest); [now rewrite <- app_assoc|congruence]. }
    pose proof (R (from (copy_of d))) as Rd. destruct (recall memory (from (copy_of d))) as [s|].
    2: { exfalso. apply (Rd c); [apply in_or_app; right; now left|now rewrite Ec]. }
    destruct Rd as (u' & c' & v' & Ep & Ef & En & Ev).
    (* the last one is a copy of the same message *)
    assert (Same : copy_of c' = copy_of d).
    { assert (Ic : In c (u' ++ c' :: v')) by (rewrite <- Ep; apply in_or_app; right; now left).
      assert (Nv : ~ In c v') by (intros Iv; apply (Ev c Iv); now rewrite Ec).
      assert (Ic' : In c' (u ++ c :: v)) by (rewrite Ep; apply in_or_app; right; now left).
      assert (Q : c' = c \/ In c' v).
      { clear - Ep Nv. revert u' Ep. induction u as [|x u IHu]; intros u' Ep.
        - destruct u' as [|y u']; cbn in Ep; injection Ep as E1 E2; [left; congruence|]. right. rewrite E2. apply in_or_app. right. now left.
        - destruct u' as [|y u']; cbn in Ep; injection Ep as E1 E2.
          + exfalso. apply Nv. rewrite <- E2. apply in_or_app. right. now left.
          + exact (IHu u' E2). }
      destruct Q as [->|Q]; [exact Ec|]. rewrite <- Ec. apply (O u c v d rest c'); [now rewrite <- app_assoc|congruence|exact Q|congruence]. }
    rewrite Rt, <- En, Same, N.eqb_refl. cbn [andb]. rewrite E in M, O, N. apply (IH (((u ++ c :: v)) ++ [d]) memory seen M O N).
    + intros a. pose proof (R a) as Ra. destruct (recall memory a) as [t|].
      * destruct Ra as (u2 & c2 & v2 & Ep2 & Ef2 & En2 & Ev2). destruct (list_eq_dec N.eq_dec (from (copy_of d)) a) as [Y|Y].
        -- exists (u ++ c :: v), d, []. split; [reflexivity|]. split; [exact Y|]. split; [|intros x []]. rewrite <- En2.
           (* c2 is c' *)
           assert (Z : c2 = c').
           { clear - Ep Ep2 Ef Ef2 Ev Ev2 Y. rewrite Y in Ef, Ev. rewrite Ep in Ep2. clear Ep. revert u2 Ep2. induction u' as [|x u' IHu]; intros u2 Ep2.
             - destruct u2 as [|y u2]; cbn in Ep2; injection Ep2 as E1 E2; [congruence|]. exfalso. apply (Ev c2); [rewrite E2; apply in_or_app; right; now left|exact Ef2].
             - destruct u2 as [|y u2]; cbn in Ep2; injection Ep2 as E1 E2; [|exact (IHu u2 E2)].
               exfalso. apply (Ev2 c'); [rewrite <- E2; apply in_or_app; right; now left|exact Ef]. }
           now rewrite Z, Same.
        -- exists u2, c2, (v2 ++ [d]). split; [rewrite Ep2, <- app_assoc; reflexivity|]. split; [exact Ef2|]. split; [exact En2|].
           intros x Ix. apply in_app_or in Ix. destruct Ix as [Ix|[<-|[]]]; [now apply Ev2|exact Y].
      * intros x Ix. apply in_app_or in Ix. destruct Ix as [Ix|[<-|[]]]; [now apply Ra|]. intros Y. apply (Ra c); [apply in_or_app; right; now left|now rewrite Ec].
    + intros k. rewrite (S k), (map_app _ (u ++ c :: v) [d]), in_app_iff. cbn [map In]. split; [auto|]. intros [H|[<-|[]]]; [exact H|]. rewrite <- Ec. apply in_map, in_or_app. right. now left.
  - assert (Nr : copy_retry d && match recall memory (from (copy_of d)) with Some s => (s =? number (copy_of d))%N | None => false end = false).
    { destruct (copy_retry d); [|reflexivity]. cbn [andb]. pose proof (R (from (copy_of d))) as Rd. destruct (recall memory (from (copy_of d))) as [s|]; [|reflexivity].
      destruct Rd as (u & c & v & -> & Ef & <- & Ev). apply N.eqb_neq. apply N. unfold next_of. exists u, v, rest. split; [now rewrite <- app_assoc|].
      split; [|split; [exact Ef|rewrite Ef; exact Ev]]. intros Z. apply I, S. rewrite <- Z. apply in_map, in_or_app. right. now left. }
    rewrite Nr. cbn [map]. f_equal. rewrite E in M, O, N. apply (IH (pre ++ [d]) _ _ M O N).
    + intros a. cbn [recall]. destruct (list_eq_dec N.eq_dec (from (copy_of d)) a) as [Y|Y].
      * exists pre, d, []. split; [reflexivity|]. split; [exact Y|]. split; [reflexivity|intros x []].
      * pose proof (R a) as Ra. destruct (recall memory a) as [t|].
        -- destruct Ra as (u & c & v & -> & Ef & En & Ev). exists u, c, (v ++ [d]). split; [rewrite <- app_assoc; reflexivity|]. split; [exact Ef|]. split; [exact En|].
           intros x Ix. apply in_app_or in Ix. destruct Ix as [Ix|[<-|[]]]; [now apply Ev|exact Y].
        -- intros x Ix. apply in_app_or in Ix. destruct Ix as [Ix|[<-|[]]]; [now apply Ra|exact Y].
    + intros k. rewrite map_app, in_app_iff. cbn [map In]. rewrite (S k). tauto.
Qed.
End Filter.
Lemma once_spec l : forall seen, NoDup (once seen l) /\ forall k, In k (once seen l) <-> In k l /\ ~ In k seen.
Proof.
  induction l as [|x l IH]; intros seen; cbn [once].
  - split; [constructor|]. intros k. cbn. tauto.
  - destruct (in_dec Nat.eq_dec x seen) as [I|I].
    + destruct (IH seen) as (D & M). split; [exact D|]. intros k. rewrite M. cbn. split; [tauto|]. intros ([->|H] & H2); tauto.
    + destruct (IH (x :: seen)) as (D & M). split.
      * constructor; [|exact D]. rewrite M. cbn. tauto.
      * intros k. cbn [In]. rewrite M. cbn [In]. destruct (Nat.eq_dec x k) as [->|Z]; tauto.
Qed.

Lemma once_all l : NoDup (once [] l) /\ forall k, In k (once [] l) <-> In k l.
Proof. destruct (once_spec l []) as [D M]. split; [exact D|]. intros k. rewrite M. cbn. tauto. Qed.

(** ** the senders *)
Lemma retry_bits b : (b < 256)%N ->
  (N.lor b 8 < 256)%N /\ N.testbit (N.lor b 8) 3 = true /\ (forall i, i <> 3%N -> N.testbit (N.lor b 8) i = N.testbit b i).
Proof.
  intros B. split; [|split].
  - assert (E : N.lor b 8 = (N.lor b 8 mod 2 ^ 8)%N).
    { apply N.bits_inj. intros i. rewrite <- N.land_ones, N.land_spec, N.lor_spec. destruct (N.ltb_spec i 8).
      - rewrite (N.ones_spec_low 8 i) by assumption. now rewrite andb_true_r.
      - rewrite (N.ones_spec_high 8 i) by assumption. rewrite andb_false_r. apply orb_false_iff. split.
        + destruct (N.eq_dec b 0) as [->|Z]; [apply N.bits_0|]. apply N.bits_above_log2. apply N.log2_lt_pow2; [lia|]. apply N.lt_le_trans with (2 ^ 8)%N; [exact B|]. apply N.pow_le_mono_r; lia.
        + apply N.bits_above_log2. change (N.log2 8) with 3%N. lia. }
    rewrite E. apply N.mod_lt. discriminate.
  - rewrite N.lor_spec. apply orb_true_r.
  - intros i Hi. rewrite N.lor_spec. replace (N.testbit 8 i) with false; [apply orb_false_r|].
    change 8%N with (2 ^ 3)%N. symmetry. apply N.pow2_bits_false. congruence.
Qed.

Section Facts.
Context {cfg : Cfg}.
Lemma type_rt W R (t : BodyType W R) i subtype ok fixed cont conv empty_ok :
  mgmt_type W R t i subtype ok fixed cont conv empty_ok -> MgmtRoundTrip t subtype ok fixed cont conv empty_ok.
Proof.
  intros T. destruct T; [exact beacon_rt|exact probe_resp_rt|exact probe_rt|exact auth_rt|exact assoc_req_rt|exact assoc_resp_rt|exact deauth_rt|exact disassoc_rt|
    exact vendor_rt|exact open_rt|exact confirm_rt|exact close_rt].
Qed.
Lemma mgmt_message_frame W R (t : BodyType W R) i subtype ok fixed cont conv empty_ok h w es buf buf' n :
  mgmt_type W R t i subtype ok fixed cont conv empty_ok -> ok_mgmt_header h -> ok w -> wf_bytes es -> Writes (c_write (cont w)) es ->
  length (enc_frame true (enc_mgmt subtype h (fixed w ++ es))) + slack <= length buf ->
  wr_mgmt t h w true buf = Ok (buf', n) -> firstn n buf' = enc_frame true (enc_mgmt subtype h (fixed w ++ es)).
Proof.
  intros T Hh Hw We Wr L E. destruct (type_rt _ _ _ _ _ _ _ _ _ _ T h w es true Hh Hw We Wr) as (Wt & _ & _).
  destruct (written_at _ _ _ Wt L) as (b2 & n2 & E2 & F). rewrite E in E2. injection E2 as <- <-. exact F.
Qed.
Lemma data_message_frame h p body buf buf' n : ok_data_header h -> payload_ok h p body ->
  length (enc_frame true (enc_data h body)) + slack <= length buf ->
  wr_data (h, p) true buf = Ok (buf', n) -> firstn n buf' = enc_frame true (enc_data h body).
Proof.
  intros Hh PO L E. destruct (data_round_trip h p body true Hh PO) as (Wt & _ & _).
  destruct (written_at _ _ _ Wt L) as (b2 & n2 & E2 & F). rewrite E in E2. injection E2 as <- <-. exact F.
Qed.
Lemma again_frame b0 b1 rest : again (enc_frame true (b0 :: b1 :: rest)) = enc_frame true (b0 :: N.lor b1 8 :: rest).
Proof.
  unfold again. replace (firstn _ (enc_frame true (b0 :: b1 :: rest))) with (b0 :: b1 :: rest).
  - reflexivity.
  - symmetry. unfold enc_frame. apply firstn_app_exact. rewrite app_length, le_bytes_length. lia.
Qed.
Lemma message_sent {X} (l : list (nat * Arm (Got X))) f g : message l f g -> sent l f g.
Proof.
  intros S. destruct S as [W R t i subtype ok fixed cont conv empty_ok fn h w es buf buf' n T I Hh Hw We Wr EO L E|fn h p body buf buf' n I Hh PO L E].
  - exact (sent_mgmt l _ _ t i subtype ok fixed cont conv empty_ok _ h w es buf buf' n T I Hh Hw We Wr EO L E).
  - exact (sent_data l _ h p body buf buf' n I Hh PO L E).
Qed.
Definition marked_again {X} (g : Got X) : Got X := mkGot (got_from g) (got_seq g) true (got_what g).
Lemma message_again {X} (l : list (nat * Arm (Got X))) f g : message l f g -> message l (again f) (marked_again g).
Proof.
  intros S. destruct S as [W R t i subtype ok fixed cont conv empty_ok fn h w es buf buf' n T I Hh Hw We Wr EO L E|fn h p body buf buf' n I Hh PO L E].
  - rewrite (mgmt_message_frame _ _ _ _ _ _ _ _ _ _ h w es buf buf' n T Hh Hw We Wr L E).
    set (h' := mkMH (N.lor (mh_flags h) 8) (mh_duration h) (mh_ra h) (mh_ta h) (mh_bssid h) (mh_seq h) (mh_ht h)).
    assert (Q : again (enc_frame true (enc_mgmt subtype h (fixed w ++ es))) = enc_frame true (enc_mgmt subtype h' (fixed w ++ es))) by apply again_frame.
    destruct (retry_bits (mh_flags h)) as (B1 & B2 & B3); [apply Hh|].
    assert (Hh' : ok_mgmt_header h').
    { destruct Hh as (F & D & Hr & Ht & B & Qq & H). unfold ok_mgmt_header. cbn [h' mh_flags mh_duration mh_ra mh_ta mh_bssid mh_seq mh_ht].
      rewrite B3 by discriminate. exact (conj B1 (conj D (conj Hr (conj Ht (conj B (conj Qq H)))))). }
    assert (L' : length (enc_frame true (enc_mgmt subtype h' (fixed w ++ es))) + slack <= length buf).
    { revert L. unfold enc_frame. rewrite !app_length, !le_bytes_length. unfold enc_mgmt. rewrite !app_length. exact (fun x => x). }
    destruct (type_rt _ _ _ _ _ _ _ _ _ _ T h' w es true Hh' Hw We Wr) as (Wt & _ & _).
    destruct (written_at _ _ _ Wt L') as (b2 & n2 & E2 & F). rewrite Q, <- F.
    replace (marked_again (got_mgmt fn (h, conv w es))) with (got_mgmt fn (h', conv w es)).
    + exact (message_mgmt l _ _ t i subtype ok fixed cont conv empty_ok fn h' w es buf b2 n2 T I Hh' Hw We Wr EO L' E2).
    + unfold got_mgmt, marked_again. cbn [fst snd h' mh_ta mh_seq mh_flags got_from got_seq got_what]. now rewrite B2.
  - rewrite (data_message_frame h p body buf buf' n Hh PO L E).
    set (h' := mkDH (dh_subtype h) (N.lor (dh_flags h) 8) (dh_duration h) (dh_a1 h) (dh_a2 h) (dh_a3 h) (dh_seq h) (dh_a4 h) (dh_qos h) (dh_ht h)).
    assert (Q : again (enc_frame true (enc_data h body)) = enc_frame true (enc_data h' body)) by apply again_frame.
    assert (F8 : (dh_flags h < 256)%N) by (destruct Hh; tauto).
    destruct (retry_bits (dh_flags h) F8) as (B1 & B2 & B3).
    assert (Hh' : ok_data_header h').
    { revert Hh. unfold ok_data_header, subtype_number. cbn [h' dh_subtype dh_flags dh_duration dh_a1 dh_a2 dh_a3 dh_seq dh_a4 dh_qos dh_ht].
      rewrite !B3 by discriminate. unfold u8 in *. tauto. }
    assert (PO' : payload_ok h' p body) by exact PO.
    assert (L' : length (enc_frame true (enc_data h' body)) + slack <= length buf).
    { revert L. unfold enc_frame. rewrite !app_length, !le_bytes_length. unfold enc_data. rewrite !app_length. exact (fun x => x). }
    destruct (data_round_trip h' p body true Hh' PO') as (Wt & _ & _).
    destruct (written_at _ _ _ Wt L') as (b2 & n2 & E2 & F). rewrite Q, <- F.
    match goal with |- message l _ (marked_again (got_data fn (_, ?c))) =>
      replace (marked_again (got_data fn (if native_le then h else swapped_header h, c))) with (got_data fn (if native_le then h' else swapped_header h', c)) end.
    + exact (message_data l fn h' p body buf b2 n2 I Hh' PO' L' E2).
    + unfold got_data, marked_again. destruct native_le; cbn [fst snd h' swapped_header dh_a2 dh_seq dh_flags got_from got_seq got_what]; now rewrite B2.
Qed.
(** the number as it is stored in the frame *)
Lemma message_number {X} (l : list (nat * Arm (Got X))) f g : message l f g -> native_le = true -> got_seq g = stored_number f.
Proof.
  intros S NL. destruct S as [W R t i subtype ok fixed cont conv empty_ok fn h w es buf buf' n T I Hh Hw We Wr EO L E|fn h p body buf buf' n I Hh PO L E].
  - rewrite (mgmt_message_frame _ _ _ _ _ _ _ _ _ _ h w es buf buf' n T Hh Hw We Wr L E). cbn [got_mgmt got_seq fst].
    destruct Hh as (_ & D & (Hr & _) & (Ht & _) & (Hb & _) & Q & _).
    unfold stored_number, enc_frame, enc_mgmt, enc_fcf, enc_mgmt_header. rewrite <- !app_assoc.
    match goal with |- _ = le_val (firstn 2 (skipn 22 (?a ++ ?d ++ ?r ++ ?t ++ ?b ++ ?s ++ ?q))) =>
      replace (skipn 22 (a ++ d ++ r ++ t ++ b ++ s ++ q)) with (s ++ q) end.
    + rewrite firstn_app_exact by (symmetry; apply le_bytes_length). rewrite le_val_bytes. symmetry. apply N.mod_small. exact Q.
    + generalize (le_bytes 2 (mh_seq h)) as sq. intros sq. match goal with |- _ ++ ?q = skipn 22 _ => generalize q end. intros q.
      rewrite !app_assoc, <- (app_assoc _ sq q). symmetry. apply skipn_app_exact. rewrite !app_length, le_bytes_length, Hr, Ht, Hb. reflexivity.
  - rewrite (data_message_frame h p body buf buf' n Hh PO L E), NL. cbn [got_data got_seq fst].
    assert (Lr : length (dh_a1 h) = 6 /\ length (dh_a2 h) = 6 /\ length (dh_a3 h) = 6 /\ u16 (dh_seq h)).
    { revert Hh. unfold ok_data_header, address, byte_array. tauto. }
    destruct Lr as (Hr & Ht & Hb & Q).
    unfold stored_number, enc_frame, enc_data, enc_fcf, enc_data_header. rewrite <- !app_assoc.
    match goal with |- _ = le_val (firstn 2 (skipn 22 (?a ++ ?d ++ ?r ++ ?t ++ ?b ++ ?s ++ ?q))) =>
      replace (skipn 22 (a ++ d ++ r ++ t ++ b ++ s ++ q)) with (s ++ q) end.
    + rewrite firstn_app_exact by (symmetry; apply le_bytes_length). rewrite le_val_bytes. symmetry. apply N.mod_small. exact Q.
    + generalize (le_bytes 2 (dh_seq h)) as sq. intros sq. match goal with |- _ ++ ?q = skipn 22 _ => generalize q end. intros q.
      rewrite !app_assoc, <- (app_assoc _ sq q). symmetry. apply skipn_app_exact. rewrite !app_length, le_bytes_length, Hr, Ht, Hb. reflexivity.
Qed.

(** ** together *)
Section Air.
Context {X : Type} (l : list (nat * Arm (Got X))) (frames : nat -> bytes) (got : nat -> Got X).
Lemma copies_channel copies : Forall (fun c => message l (frames (copy_of c)) (got (copy_of c)) /\ got_retry (got (copy_of c)) = false) copies ->
  Forall (heard_or_damaged frames) copies ->
  channel l (map heard copies) (map (got_copy got) (filter (intact frames) copies)).
Proof.
  intros M H. induction copies as [|c copies IH]; cbn [map filter]; [constructor|].
  inversion M as [|? ? [M1 M1'] M2]; subst. inversion H as [|? ? H1 H2]; subst. specialize (IH M2 H2).
  assert (S : sent l (copy_frame frames c) (got_copy got c)).
  { apply message_sent. unfold copy_frame, got_copy. destruct (copy_retry c).
    - exact (message_again l _ _ M1).
    - rewrite <- M1'. destruct (got (copy_of c)). exact M1. }
  unfold intact. destruct (list_eq_dec N.eq_dec (heard c) (copy_frame frames c)) as [E|E].
  - cbn [map]. rewrite E. now apply channel_intact.
  - destruct H1 as [H1|H1]; [contradiction|]. exact (channel_damaged l _ _ _ _ _ S H1 IH).
Qed.
End Air.
Lemma delivered_once X (l : list (nat * Arm (Got X))) frames got copies :
  typed_arms l -> Forall (fun c => message l (frames (copy_of c)) (got (copy_of c)) /\ got_retry (got (copy_of c)) = false) copies ->
  Forall (heard_or_damaged frames) copies ->
  (let arrived := filter (intact frames) copies in
   marked arrived -> one_by_one (fun k => got_from (got k)) arrived -> numbered (fun k => got_from (got k)) (fun k => got_seq (got k)) arrived ->
   exists gots, station (map snd l) (map heard copies) = Ok gots /\
     without_repeats [] gots = map (fun k => got_what (got k)) (once [] (map copy_of arrived))).
Proof.
  intros TA M H arrived D1 D2 D3. exists (map (got_copy got) arrived). split.
  - apply (through_noise _ l); [exact TA|]. now apply copies_channel.
  - apply (filter_once got arrived [] [] []); [exact D1|exact D2|exact D3| |].
    + intros a. cbn [recall]. intros c [].
    + intros k. reflexivity.
Qed.
Lemma counted_once X (l : list (nat * Arm (Got X))) frames got copies counter : native_le = true ->
  typed_arms l -> Forall (fun c => message l (frames (copy_of c)) (got (copy_of c)) /\ got_retry (got (copy_of c)) = false) copies ->
  Forall (heard_or_damaged frames) copies ->
  (let arrived := filter (intact frames) copies in
   marked arrived -> one_by_one (fun k => got_from (got k)) arrived -> counted counter frames (fun k => got_from (got k)) arrived ->
   exists gots, station (map snd l) (map heard copies) = Ok gots /\
     without_repeats [] gots = map (fun k => got_what (got k)) (once [] (map copy_of arrived))).
Proof.
  intros NL TA M H arrived D1 D2 [C1 C2]. apply delivered_once; try assumption. fold arrived. intros c d Hn.
  pose proof (C2 c d Hn) as C. destruct Hn as (a & b & e & E & _).
  assert (Ic : In c arrived) by (rewrite E; apply in_or_app; right; now left).
  assert (Id : In d arrived) by (rewrite E; apply in_or_app; right; right; apply in_or_app; right; now left).
  rewrite Forall_forall in M.
  assert (Mn : forall x, In x arrived -> got_seq (got (copy_of x)) = (16 * (counter (copy_of x) mod 4096))%N).
  { intros x Ix. rewrite <- (C1 x Ix). apply message_number with (l := l); [|exact NL]. apply filter_In in Ix. now apply M. }
  rewrite (Mn c Ic), (Mn d Id). intros Z.
  assert (Z' : (counter (copy_of c) mod 4096 = counter (copy_of d) mod 4096)%N) by lia. clear Z.
  set (x := counter (copy_of c)) in *. set (y := counter (copy_of d)) in *.
  pose proof (N.div_mod x 4096 ltac:(discriminate)) as Ex. pose proof (N.div_mod y 4096 ltac:(discriminate)) as Ey. rewrite <- Z' in Ey. clear - C Ex Ey.
  revert Ex Ey. generalize (x / 4096)%N (y / 4096)%N (x mod 4096)%N. intros p q r Ex Ey. nia.
Qed.
End Facts.
