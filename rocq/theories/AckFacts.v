(** Proofs about messages that are repeated until they are acknowledged. *)
From Verif Require Import Base SpecBase BaseFacts Bits Layouts Crc CrcFacts SpecFcs FcsFacts CrcPolyFacts Enums EnumsFacts Common CommonFacts Elements SpecElements ElementsFacts ElementTypes SpecElementTypes ElementTypesFacts
  Mgmt SpecMgmt MgmtFacts MgmtFacts2 MgmtFacts3 MgmtFacts5 Data SpecData DataFacts DataFacts2 Control Generic SpecGeneric GenericFacts GenericFacts2 GenericFacts3 ViewFacts
  SpecPortable RelayFacts SpecDelivery DeliveryFacts SpecNoise NoiseFacts SpecRetry SpecReserve ReserveFacts SpecAck.

Section F.
Context {cfg : Cfg}.
(** how the receiver reads a number *)
Definition as_read (number : N) : N := let s := (16 * (number mod 4096))%N in if native_le then s else swapped s.
Lemma next_differs k : as_read k <> as_read (k + 1).
Proof.
  assert (D : (16 * (k mod 4096) <> 16 * ((k + 1) mod 4096))%N).
  { pose proof (N.div_mod k 4096). pose proof (N.div_mod (k + 1) 4096). pose proof (N.mod_lt k 4096). pose proof (N.mod_lt (k + 1) 4096). lia. }
  assert (U : forall x, u16 (16 * (x mod 4096))%N) by (intros x; unfold u16; pose proof (N.mod_lt x 4096); lia).
  unfold as_read. destruct native_le; [exact D|]. intros E. apply D. rewrite <- (swapped_twice _ (U k)), E. apply swapped_twice, U.
Qed.
Lemma transmission_sent l from to tx f : In (data_arm from to) l -> transmission from to tx f ->
  exists m rest, tx_todo tx = m :: rest /\ sent l f (Some (mkGot from (as_read (tx_number tx)) (tx_again tx) m)).
Proof.
  intros I [m rest h c buf buf' n T Hh Hf Ht Hs Hr PO Room E]. exists m, rest. split; [exact T|].
  pose proof (sent_data l (from_to from to) h (Some c) m buf buf' n I Hh PO Room E) as S. cbv iota in S.
  assert (Z : from_to from to (if native_le then h else swapped_header h, Some m) = Some (mkGot from (as_read (tx_number tx)) (tx_again tx) m)); [|rewrite Z in S; exact S].
  unfold from_to, got_data, as_read. cbn [fst snd]. destruct native_le; cbn [swapped_header dh_a1 dh_a2 dh_seq dh_flags];
    (destruct (list_eq_dec N.eq_dec (dh_a2 h) from) as [_|X]; [|now destruct X]); (destruct (list_eq_dec N.eq_dec (dh_a1 h) to) as [_|X]; [|now destruct X]);
    now rewrite Hf, Hs, Hr.
Qed.
Lemma receives_other l rx f : typed_arms l -> sent l f None -> receives (map snd l) rx (Some f) = Ok (rx, None).
Proof. intros TA S. unfold receives. now rewrite (sent_runs l f _ TA S). Qed.
Lemma receives_spoilt l rx f (a : option (Got bytes)) b : typed_arms l -> sent l f a -> spoilt f b -> receives (map snd l) rx b = Ok (rx, None).
Proof.
  intros TA S D. destruct b as [b|]; [|reflexivity]. cbn [spoilt] in D. unfold receives.
  destruct (refused f b D (runs_valid _ _ _ (sent_runs l f a TA S))) as (_ & _ & _ & M). now destruct (M _ (map snd l)) as (e & ->).
Qed.
Lemma receives_frame l rx f g : typed_arms l -> sent l f (Some g) ->
  receives (map snd l) rx (Some f) = Ok (if repeats rx g then rx else mkRx (Some (got_seq g)) (rx_delivered rx ++ [got_what g]), Some (C_Ack 0 0 (got_from g))).
Proof. intros TA S. unfold receives. now rewrite (sent_runs l f _ TA S). Qed.
(** ** acknowledgements *)
Lemma ack_reads fl d ra : (d < 65536)%N -> length ra = 6 -> Reads (rd_ctrl Ct_Ack fl) (enc_ctrl (C_Ack fl d ra)) (C_Ack fl d ra).
Proof.
  intros Hd La rest. cbn [enc_ctrl]. unfold rd_ctrl. match goal with |- context [gread _ ?x 0] => pose proof (At_start x) as A end. rewrite <- ?app_assoc in A |- *.
  rstep A. rstep A. do 2 f_equal; rewrite ?app_length, ?le_bytes_length; cbn [length]; lia.
Qed.
Lemma answer_is c f : ok_ctrl c -> answer_frame c f -> exists g x, f = enc_frame true g /\ wf_bytes g /\ g = le_bytes 2 x ++ enc_ctrl c /\
  fcf_frame_type x = FT_Control (ctrl_subtype c) /\ fcf_flags x = ctrl_flags c /\ (x < 65536)%N.
Proof.
  intros Hc [buf buf' n fcs Room Wr Fc]. destruct (ctrl_written _ Hc) as (x & _ & Lx & Ws & Wg & T & FF & B). set (g := le_bytes 2 x ++ enc_ctrl c) in *.
  assert (Lg : length g = 2 + length (enc_ctrl c)) by (unfold g; now rewrite app_length, le_bytes_length).
  destruct (written_at _ g buf Ws) as (b2 & n2 & E & F); [rewrite Lg; exact Room|]. rewrite Wr in E. injection E as <- <-. rewrite F in *.
  exists g, x. split; [|auto]. unfold enc_frame. f_equal. now apply fcs_standard.
Qed.
Lemma ack_heard me f : address me -> answer_frame (C_Ack 0 0 me) f -> acknowledged me (Some f) = Ok true.
Proof.
  intros A H. assert (O : ok_ctrl (C_Ack 0 0 me)) by (split; [reflexivity|split; [reflexivity|exact A]]).
  destruct (answer_is _ f O H) as (g & x & F & Wg & G & T & FF & B). destruct A as (La & _).
  assert (Lg : length g = 10) by (rewrite G; cbn [enc_ctrl]; rewrite !app_length, !le_bytes_length; lia).
  unfold acknowledged. rewrite F, (gf_new_enc true) by (exact Wg || lia). rewrite gf_fcf_ok by lia. cbn [rbind].
  assert (X : le_val (firstn 2 g) = x) by (rewrite G, firstn_app_exact by (now rewrite le_bytes_length); now apply le_val_bytes_small). rewrite X, T, FF. cbn [ctrl_subtype ctrl_flags].
  assert (Sl : @slice_from serr g 2 = Ok (enc_ctrl (C_Ack 0 0 me))).
  { unfold slice_from. rewrite Lg. cbn [Nat.leb]. rewrite G. reflexivity. }
  rewrite Sl. cbn [rbind]. unfold pread.
  assert (At0 : At (enc_ctrl (C_Ack 0 0 me)) 0 (enc_ctrl (C_Ack 0 0 me) ++ [])) by (rewrite app_nil_r; apply At_start).
  rewrite (gread_step _ _ 0 _ _ [] At0 (ack_reads 0 0 me eq_refl La)) by discriminate. cbn [rbind].
  destruct (list_eq_dec N.eq_dec me me) as [_|N]; [reflexivity|now destruct N].
Qed.
Lemma ack_spoilt me f b : address me -> answer_frame (C_Ack 0 0 me) f -> spoilt f b -> acknowledged me b = Ok false.
Proof.
  intros A H D. destruct b as [b|]; [|reflexivity]. cbn [spoilt] in D. assert (O : ok_ctrl (C_Ack 0 0 me)) by (split; [reflexivity|split; [reflexivity|exact A]]).
  destruct (answer_is _ f O H) as (g & x & F & Wg & _). destruct (damage_seen f b D) as (e & E).
  { exists g. rewrite F. pose proof (strip_frame true g Wg) as Z. exact Z. }
  unfold acknowledged, gf_new. rewrite E. reflexivity.
Qed.
Lemma not_for_me me ra d f : wrote ra d f -> ra <> me -> acknowledged me (Some f) = Ok false.
Proof.
  intros X Ne. destruct (seen ra d f X) as (g & E & F & W & A & _). unfold acknowledged. rewrite E.
  assert (L : 10 <= length g).
  { unfold gf_new in E. destruct (strip_and_validate_fcs f) as [b| |]; cbn [rbind] in E; try discriminate E.
    match type of E with (if ?c then _ else _) = _ => destruct c eqn:Z; [discriminate E|] end. apply Nat.ltb_ge in Z. injection E as <-. lia. }
  pose proof (gf_fcf_ok g L) as Ef. rewrite Ef. cbn [rbind]. set (x := le_val (firstn 2 g)) in *.
  destruct (fcf_frame_type x) as [m|s|dt|u] eqn:T; try reflexivity.
  unfold slice_from. rewrite (proj2 (Nat.leb_le 2 (length g))) by lia. cbn [rbind].
  rewrite pread0 by (intros Z; apply (f_equal (@length N)) in Z; rewrite skipn_length in Z; cbn in Z; lia).
  pose proof (ctrl_received s (fcf_flags x) (skipn 2 g) (wf_skipn 2 g W)) as CR.
  destruct (rd_ctrl s (fcf_flags x) (skipn 2 g)) as [(c, n)|e|] eqn:R; [|reflexivity|destruct CR].
  destruct (ctrl_view g x s c n W L Ef T R) as (V & _). rewrite A in V. injection V as V. destruct c; try reflexivity. cbn [ctrl_receiver_address] in V. subst.
  match goal with |- context [list_eq_dec N.eq_dec ?a ?b] => destruct (list_eq_dec N.eq_dec a b); [contradiction|reflexivity] end.
Qed.
Lemma others_no_ack me b : for_others me b -> acknowledged me b = Ok false.
Proof.
  destruct b as [b|]; [|reflexivity]. intros (ra & d & f & X & Ne & [->|D]); [exact (not_for_me me ra d f X Ne)|].
  destruct (seen ra d f X) as (g & _ & F & W & _). destruct (damage_seen f b D) as (e & E).
  { exists g. rewrite F. pose proof (strip_frame true g W) as Z. exact Z. }
  unfold acknowledged, gf_new. rewrite E. reflexivity.
Qed.
(** data frames of others *)
Lemma stranger_sent l from to from' to' tx' f : In (data_arm from to) l -> transmission from' to' tx' f -> from' <> from \/ to' <> to -> sent l f None.
Proof.
  intros I [m rest h c buf buf' n T Hh Hf Ht Hs Hr PO Room E] D.
  pose proof (sent_data l (from_to from to) h (Some c) m buf buf' n I Hh PO Room E) as S. cbv iota in S.
  assert (Z : from_to from to (if native_le then h else swapped_header h, Some m) = None); [|rewrite Z in S; exact S].
  unfold from_to. cbn [fst snd]. destruct native_le; cbn [swapped_header dh_a1 dh_a2];
    (destruct (list_eq_dec N.eq_dec (dh_a2 h) from) as [X|]; [|reflexivity]); (destruct (list_eq_dec N.eq_dec (dh_a1 h) to) as [Y|]; [|reflexivity]); destruct D; congruence.
Qed.
(** ** The invariant: the first message of the sender has been delivered ([pending]) or not *)
Definition state_ok (tx : Sender) (rx : Receiver) (pending : bool) : Prop :=
  if pending then rx_last rx = Some (as_read (tx_number tx)) /\ tx_again tx = true /\ tx_todo tx <> [] else rx_last rx <> Some (as_read (tx_number tx)).
Lemma receive_step l from to tx rx f pending : typed_arms l -> In (data_arm from to) l -> transmission from to tx f -> state_ok tx rx pending ->
  exists m rest rx', tx_todo tx = m :: rest /\ receives (map snd l) rx (Some f) = Ok (rx', Some (C_Ack 0 0 from)) /\
    rx_last rx' = Some (as_read (tx_number tx)) /\ rx_delivered rx' = rx_delivered rx ++ (if pending then [] else [m]).
Proof.
  intros TA I T H. destruct (transmission_sent l from to tx f I T) as (m & rest & E & S). rewrite (receives_frame l rx f _ TA S). cbn [got_seq got_what got_from].
  assert (R : repeats rx (mkGot from (as_read (tx_number tx)) (tx_again tx) m) = pending).
  { unfold repeats. cbn [got_retry got_seq]. destruct pending; cbn [state_ok] in H.
    - destruct H as (-> & -> & _). now rewrite N.eqb_refl.
    - destruct (tx_again tx); [|reflexivity]. cbn [andb]. destruct (rx_last rx) as [s|]; [|reflexivity]. apply N.eqb_neq. congruence. }
  rewrite R. destruct pending.
  - exists m, rest, rx. split; [exact E|]. split; [reflexivity|]. split; [apply H|now rewrite app_nil_r].
  - eexists m, rest, _. split; [exact E|]. split; [reflexivity|]. split; reflexivity.
Qed.
Lemma after_false tx rx pending : state_ok tx rx pending -> state_ok (after tx false) rx pending.
Proof. destruct pending; cbn; tauto. Qed.
Lemma goes_on l from to tx air answers acks : typed_arms l -> In (data_arm from to) l -> address from -> bad_channel l from to tx air answers acks ->
  forall rx done pending, state_ok tx rx pending -> rx_delivered rx = done ++ (if pending then firstn 1 (tx_todo tx) else []) ->
  exists tx' rx' j, attempts (map snd l) from tx rx air = Ok (tx', rx', answers) /\ tx_todo tx' = skipn acks (tx_todo tx) /\ acks <= length (tx_todo tx) /\
    rx_delivered rx' = done ++ firstn j (tx_todo tx) /\ acks <= j <= S acks.
Proof.
  intros TA I A H. induction H as [tx|tx f b c air answers acks T D O H IH|tx f b c air answers acks T S O H IH|tx f from' to' tx' b c air answers acks T T' N O H IH|tx f a b air answers acks T Fa D H IH|tx f a air answers acks T Fa H IH];
    intros rx done pending K L; cbn [attempts].
  - exists tx, rx, (if pending then 1 else 0). split; [reflexivity|]. split; [reflexivity|]. split; [lia|]. split; [rewrite L; now destruct pending|destruct pending; lia].
  - destruct (transmission_sent l from to tx f I T) as (m & rest & E & S). rewrite (receives_spoilt l rx f _ b TA S D). cbn [rbind]. rewrite (others_no_ack _ _ O). cbn [rbind].
    destruct (IH rx done pending (after_false _ _ _ K) L) as (tx' & rx' & j & R & Z). rewrite R. exists tx', rx', j. split; [reflexivity|exact Z].
  - rewrite (receives_other l rx b TA S). cbn [rbind]. rewrite (others_no_ack _ _ O). cbn [rbind].
    destruct (IH rx done pending (after_false _ _ _ K) L) as (tx1 & rx' & j & R & Z). rewrite R. exists tx1, rx', j. split; [reflexivity|exact Z].
  - rewrite (receives_other l rx b TA (stranger_sent l from to from' to' tx' b I T' N)). cbn [rbind]. rewrite (others_no_ack _ _ O). cbn [rbind].
    destruct (IH rx done pending (after_false _ _ _ K) L) as (tx1 & rx' & j & R & Z). rewrite R. exists tx1, rx', j. split; [reflexivity|exact Z].
  - destruct (receive_step l from to tx rx f pending TA I T K) as (m & rest & rx1 & E & R1 & L1 & D1). rewrite R1. cbn [rbind].
    assert (NA : acknowledged from b = Ok false) by (destruct D as [D|D]; [exact (ack_spoilt from a b A Fa D)|exact (others_no_ack from b D)]). rewrite NA. cbn [rbind].
    destruct (IH rx1 done true) as (tx' & rx' & j & R & Z).
    + split; [exact L1|]. split; [reflexivity|]. cbn [after tx_todo]. rewrite E. discriminate.
    + rewrite D1, L. cbn [after tx_todo]. rewrite E. destruct pending; cbn [firstn]; rewrite ?app_nil_r; reflexivity.
    + rewrite R. exists tx', rx', j. split; [reflexivity|exact Z].
  - destruct (receive_step l from to tx rx f pending TA I T K) as (m & rest & rx1 & E & R1 & L1 & D1). rewrite R1. cbn [rbind]. rewrite (ack_heard from a A Fa). cbn [rbind].
    destruct (IH rx1 (done ++ [m]) false) as (tx' & rx' & j & R & Z1 & Z2 & Z3 & Z4).
    + cbn [state_ok after tx_number]. rewrite L1. intros X. injection X as X. exact (next_differs _ X).
    + rewrite D1, L, E, app_nil_r. destruct pending; cbn [firstn]; rewrite ?app_nil_r; reflexivity.
    + cbn [after tx_todo] in *. rewrite E in *. cbn [tl] in *. rewrite R. exists tx', rx', (S j). split; [reflexivity|]. split; [exact Z1|]. split; [cbn [length]; lia|].
      split; [|lia]. rewrite Z3, <- app_assoc. reflexivity.
Qed.
Theorem once_in_order l from to messages number air answers acks : typed_arms l -> In (data_arm from to) l -> address from ->
  bad_channel l from to (mkTx messages number false) air answers acks ->
  exists tx rx, attempts (map snd l) from (mkTx messages number false) (mkRx None []) air = Ok (tx, rx, answers) /\ tx_todo tx = skipn acks messages /\ acks <= length messages /\
    (rx_delivered rx = firstn acks messages \/ rx_delivered rx = firstn (S acks) messages).
Proof.
  intros TA I A H. destruct (goes_on l from to _ air answers acks TA I A H (mkRx None []) [] false) as (tx & rx & j & R & Z1 & Z2 & Z3 & Z4); [discriminate|reflexivity|].
  exists tx, rx. split; [exact R|]. split; [exact Z1|]. split; [exact Z2|]. cbn [app tx_todo] in Z3. rewrite Z3.
  assert (j = acks \/ j = S acks) as [-> | ->] by lia; auto.
Qed.
Theorem all_delivered_once l from to messages number air answers acks tx rx : typed_arms l -> In (data_arm from to) l -> address from ->
  bad_channel l from to (mkTx messages number false) air answers acks ->
  attempts (map snd l) from (mkTx messages number false) (mkRx None []) air = Ok (tx, rx, answers) -> tx_todo tx = [] -> rx_delivered rx = messages.
Proof.
  intros TA I A H R E. destruct (once_in_order l from to messages number air answers acks TA I A H) as (tx2 & rx2 & R2 & Z1 & Z2 & Z3).
  rewrite R in R2. injection R2 as <- <-. rewrite E in Z1. apply (f_equal (@length bytes)) in Z1. rewrite skipn_length in Z1. cbn in Z1.
  destruct Z3 as [-> | ->]; apply firstn_all2; lia.
Qed.
End F.
