(** Proofs about fragmentation and reassembly: the frames. *)
From Verif Require Import Base BaseFacts SpecBase Bits Layouts BitsFacts Crc SpecFcs Enums Common CommonFacts Elements SpecElements SpecElementTypes Mgmt SpecMgmt MgmtFacts2 MgmtFacts5
  Data SpecData DataFacts DataFacts2 Generic SpecGeneric SpecPortable SpecDelivery DeliveryFacts SpecNoise NoiseFacts SpecAccessors AccessorFacts2 SpecFragment FragmentFacts.

Lemma lor_u8 a b : (a < 256)%N -> (b < 256)%N -> (N.lor a b < 256)%N.
Proof.
  intros A B. destruct (N.eq_dec (N.lor a b) 0) as [->|Z]; [reflexivity|]. change 256%N with (2 ^ 8)%N. apply N.log2_lt_pow2; [lia|]. rewrite N.log2_lor.
  apply N.max_lub_lt; [destruct (N.eq_dec a 0) as [->|Y]|destruct (N.eq_dec b 0) as [->|Y]]; try reflexivity; apply N.log2_lt_pow2; try lia; assumption.
Qed.
Lemma piece_flags_bit m i r j : N.testbit (piece_flags m i r) j = N.testbit (dh_flags (sp_header m)) j || ((S i <? pieces_of m) && (j =? 2)%N) || (r && (j =? 3)%N).
Proof.
  unfold piece_flags. rewrite !N.lor_spec. f_equal; [f_equal|].
  - destruct (S i <? pieces_of m); [|apply N.bits_0]. cbn [andb]. change 4%N with (2 ^ 2)%N. rewrite N.pow2_bits_eqb. apply N.eqb_sym.
  - destruct r; [|apply N.bits_0]. cbn [andb]. change 8%N with (2 ^ 3)%N. rewrite N.pow2_bits_eqb. apply N.eqb_sym.
Qed.
Lemma piece_header_ok m i r : ok_split m -> i < pieces_of m -> ok_data_header (piece_header m i r).
Proof.
  intros ((T & F & D & A1 & A2 & A3 & S & A4 & Q & H) & _ & _ & _ & N & C & _) I. unfold ok_data_header. cbn [piece_header dh_subtype dh_flags dh_duration dh_a1 dh_a2 dh_a3 dh_seq dh_a4 dh_qos dh_ht].
  rewrite !piece_flags_bit. change (subtype_number (piece_header m i r)) with (subtype_number (sp_header m)). cbn [N.eqb Pos.eqb]. rewrite !andb_false_r, !orb_false_r.
  assert (B1 : u8 (piece_flags m i r)).
  { unfold piece_flags. apply lor_u8; [apply lor_u8; [exact F|destruct (_ <? _); reflexivity]|destruct r; reflexivity]. }
  assert (B2 : u16 (sequence_control (N.of_nat i) (sp_number m))) by (unfold u16, sequence_control; lia).
  exact (conj T (conj B1 (conj D (conj A1 (conj A2 (conj A3 (conj B2 (conj A4 (conj Q H))))))))).
Qed.
Lemma piece_payload_ok {cfg : Cfg} m i r : ok_split m -> payload_ok (piece_header m i r) (Some (c_bytes (piece m i))) (piece m i).
Proof.
  intros (_ & P & _ & _ & _ & _ & W). split; [exact P|]. split; [|apply c_bytes_T]. unfold piece. destruct (nth_in_or_default i (sp_pieces m) []) as [I| ->]; [|constructor].
  rewrite Forall_forall in W. now apply W.
Qed.

Section Facts.
Context {cfg : Cfg}.
Lemma piece_sent m i r buf : ok_split m -> i < pieces_of m -> length (piece_frame m i r) + slack <= length buf -> send_piece m i r buf = Ok (piece_frame m i r).
Proof.
  intros OK I L. destruct (data_round_trip _ _ _ true (piece_header_ok m i r OK I) (piece_payload_ok m i r OK)) as (W & _ & _).
  destruct (written_at _ _ buf W L) as (b & n & E & F). unfold send_piece. rewrite E. cbn [rbind]. now rewrite F.
Qed.
Lemma piece_got m i r : ok_split m ->
  got_piece (piece_header m i r, Some (piece m i)) =
  Some (mkPiece (dh_a2 (sp_header m)) (sequence_control (N.of_nat i) (sp_number m)) r (S i <? pieces_of m) (piece m i)).
Proof.
  intros (_ & _ & B2 & B3 & _). unfold got_piece. cbn [fst snd piece_header dh_a2 dh_seq dh_flags].
  rewrite (lgetb_bit FCFFlags_layout "retry" _ 3) by reflexivity. rewrite (lgetb_bit FCFFlags_layout "more_fragments" _ 2) by reflexivity.
  rewrite !piece_flags_bit, B2, B3. cbn [N.eqb Pos.eqb orb]. rewrite !andb_false_r, !andb_true_r, orb_false_r. reflexivity.
Qed.
Lemma piece_arrives l m i r : native_le = true -> In (12, mkArm _ _ data_kind rd_data got_piece) l -> ok_split m -> i < pieces_of m ->
  sent l (piece_frame m i r) (Some (mkPiece (dh_a2 (sp_header m)) (sequence_control (N.of_nat i) (sp_number m)) r (S i <? pieces_of m) (piece m i))).
Proof.
  intros NL I OK L. set (buf := repeat 0%N (length (piece_frame m i r) + slack)).
  assert (Lb : length (piece_frame m i r) + slack <= length buf) by (unfold buf; rewrite repeat_length; lia).
  destruct (data_round_trip _ _ _ true (piece_header_ok m i r OK L) (piece_payload_ok m i r OK)) as (W & _ & _).
  destruct (written_at _ _ buf W Lb) as (b & n & E & F). fold (piece_frame m i r) in F. rewrite <- F, <- (piece_got m i r OK).
  pose proof (sent_data l got_piece _ _ _ buf b n I (piece_header_ok m i r OK L) (piece_payload_ok m i r OK) Lb E) as S. rewrite NL in S. exact S.
Qed.
Fixpoint somes {A} (l : list (option A)) : list A := match l with [] => [] | Some a :: r => a :: somes r | None :: r => somes r end.
Lemma reassemble_somes ps : forall memory, reassemble memory ps = reassemble memory (map Some (somes ps)).
Proof.
  induction ps as [|[p|] ps IH]; intros memory; cbn [somes map reassemble]; [reflexivity| |apply IH].
  destruct (repetition (partial memory (pc_from p)) p); [apply IH|]. f_equal. apply IH.
Qed.
Lemma air_channel l messages air copies : native_le = true -> In (12, mkArm _ _ data_kind rd_data got_piece) l -> heard_air l messages air copies ->
  Forall (ok_copy messages) copies /\ exists due, channel l air due /\ somes due = map (got_copy messages) copies.
Proof.
  intros NL I H. induction H as [|c air copies OK L H (F & due & C & S)|c b air copies OK L D H (F & due & C & S)|f air copies Sf H (F & due & C & S)|f a b air copies Sf D H (F & due & C & S)].
  - split; [constructor|]. exists []. split; [constructor|reflexivity].
  - split; [constructor; [split; assumption|exact F]|]. eexists (Some _ :: due). split; [constructor; [apply (piece_arrives l _ _ (is_again c) NL I OK L)|exact C]|]. cbn [somes map]. now rewrite S.
  - split; [exact F|]. exists due. split; [|exact S]. eapply channel_damaged; [apply (piece_arrives l _ _ (is_again c) NL I OK L)|exact D|exact C].
  - split; [exact F|]. exists (None :: due). split; [now constructor|exact S].
  - split; [exact F|]. exists due. split; [|exact S]. eapply channel_damaged; eassumption.
Qed.
Lemma different_numbers counter messages from copies c d : Forall (ok_copy messages) copies -> messages_counted counter messages from copies -> following from copies c d ->
  sp_number (messages (of_message c)) <> sp_number (messages (of_message d)).
Proof.
  intros _ [A B] F. pose proof (B c d F) as L. destruct F as (u & v & w & E & _).
  rewrite (A c), (A d) by (rewrite E; apply in_or_app; right; first [now left|right; apply in_or_app; right; now left]). intros Z.
  pose proof (N.div_mod (counter (of_message c)) 4096 ltac:(discriminate)). pose proof (N.div_mod (counter (of_message d)) 4096 ltac:(discriminate)). rewrite Z in H. lia.
Qed.
Theorem reassembled (l : list (nat * Arm (option Piece))) messages air copies counter : native_le = true -> typed_arms l ->
  In (12, mkArm _ _ data_kind rd_data got_piece) l -> heard_air l messages air copies ->
  (let from k := dh_a2 (sp_header (messages k)) in
   pieces_marked copies -> pieces_ordered from copies -> messages_counted counter messages from copies ->
   exists ps, station (map snd l) air = Ok ps /\
     reassemble [] ps = map (fun k => (from k, concat (sp_pieces (messages k)))) (finished (fun k => pieces_of (messages k)) [] copies)).
Proof.
  intros NL TA I H from M O C. destruct (air_channel l messages air copies NL I H) as (F & due & Ch & S). exists due. split; [now apply through_noise|].
  rewrite reassemble_somes, S, map_map. apply (reassemble_finished messages copies [] []).
  - split; [exact F|]. split; [exact M|]. split; [exact O|]. intros c d Fo. eapply different_numbers; eassumption.
  - intros a. cbn [partial]. intros c [].
Qed.
End Facts.

(** ** Which messages *)
Lemma finished_in size k : forall rest past, In k (finished size past rest) <->
  exists a c b, rest = a ++ c :: b /\ of_message c = k /\ has_piece (past ++ a) k (of_piece c) = false /\ S (of_piece c) = size k /\
    forall i, i < size k -> has_piece (past ++ a ++ [c]) k i = true.
Proof.
  induction rest as [|d rest IH]; intros past; cbn [finished].
  - split; [intros []|]. intros (a & c & b & E & _). destruct a; discriminate E.
  - rewrite in_app_iff, IH. split.
    + intros [H|(a & c & b & -> & M & N & Sz & Al)].
      * destruct (negb _ && _ && _) eqn:Q; [|destruct H]. destruct H as [<-|[]]. apply andb_true_iff in Q as [Q Q3]. apply andb_true_iff in Q as [Q1 Q2].
        apply negb_true_iff in Q1. apply Nat.eqb_eq in Q2. rewrite forallb_forall in Q3. exists [], d, rest. split; [reflexivity|]. split; [reflexivity|].
        rewrite app_nil_r. split; [exact Q1|]. split; [exact Q2|]. intros i L. apply Q3. apply in_seq. lia.
      * exists (d :: a), c, b. split; [reflexivity|]. split; [exact M|]. rewrite <- app_assoc in N. split; [exact N|]. split; [exact Sz|].
        intros i L. specialize (Al i L). rewrite <- app_assoc in Al. exact Al.
    + intros (a & c & b & E & M & N & Sz & Al). destruct a as [|x a]; injection E as -> E.
      * left. subst k. rewrite app_nil_r in N. rewrite N, Sz, Nat.eqb_refl. cbn [negb andb]. replace (forallb _ _) with true; [now left|]. symmetry. apply forallb_forall.
        intros i I. apply in_seq in I. apply (Al i). lia.
      * right. exists a, c, b. split; [exact E|]. split; [exact M|]. rewrite <- app_assoc. split; [exact N|]. split; [exact Sz|]. intros i L. rewrite <- app_assoc. exact (Al i L).
Qed.
Lemma finished_nodup size : forall rest past, NoDup (finished size past rest).
Proof.
  induction rest as [|d rest IH]; intros past; cbn [finished]; [constructor|].
  destruct (negb _ && _ && _) eqn:Q; [|apply IH]. cbn [app]. constructor; [|apply IH]. intros I. apply finished_in in I. destruct I as (a & c & b & _ & M & N & Sz & _).
  apply andb_true_iff in Q as [Q _]. apply andb_true_iff in Q as [_ Q]. apply Nat.eqb_eq in Q.
  assert (E : of_piece c = of_piece d) by lia. rewrite E in N. assert (Y : has_piece ((past ++ [d]) ++ a) (of_message d) (of_piece d) = true).
  { apply has_piece_spec. exists d. split; [|auto]. apply in_or_app. left. apply in_or_app. right. now left. } congruence.
Qed.
Lemma first_piece l k i : has_piece l k i = true -> exists a c b, l = a ++ c :: b /\ of_message c = k /\ of_piece c = i /\ has_piece a k i = false.
Proof.
  induction l as [|x l IH]; [discriminate|]. intros H. destruct ((of_message x =? k) && (of_piece x =? i)) eqn:Q.
  - apply andb_true_iff in Q as [Q1 Q2]. apply Nat.eqb_eq in Q1, Q2. exists [], x, l. auto.
  - unfold has_piece in H. cbn [existsb] in H. rewrite Q in H. destruct (IH H) as (a & c & b & -> & M & P & N). exists (x :: a), c, b. split; [reflexivity|]. split; [exact M|]. split; [exact P|].
    unfold has_piece. cbn [existsb]. rewrite Q. exact N.
Qed.
Lemma finished_all size from copies : pieces_ordered from copies ->
  NoDup (finished size [] copies) /\
  forall k, In k (finished size [] copies) <-> 1 <= size k /\ forall i, i < size k -> exists c, In c copies /\ of_message c = k /\ of_piece c = i.
Proof.
  intros O. split; [apply finished_nodup|]. intros k. rewrite finished_in. cbn [app]. split.
  - intros (a & c & b & E & M & _ & Sz & Al). split; [lia|]. intros i L. specialize (Al i L). apply has_piece_spec in Al. destruct Al as (x & I & X). exists x. split; [|exact X].
    rewrite E. apply in_app_or in I. apply in_or_app. destruct I as [I|[<-|[]]]; [now left|right; now left].
  - intros (L1 & Al). assert (H : has_piece copies k (size k - 1) = true) by (apply has_piece_spec; apply Al; lia).
    destruct (first_piece _ _ _ H) as (a & c & b & E & M & P & N). exists a, c, b. split; [exact E|]. split; [exact M|]. rewrite P. split; [exact N|]. split; [lia|].
    intros i L. apply has_piece_spec. destruct (Al i L) as (x & I & Mx & Px). rewrite E in I. apply in_app_or in I. destruct I as [I|[<-|I]].
    + exists x. split; [apply in_or_app; now left|auto].
    + exists c. split; [apply in_or_app; right; now left|auto].
    + apply in_split in I. destruct I as (b1 & b2 & ->). destruct (O a c b1 x b2 E) as [Q _]; [congruence|]. exists c. split; [apply in_or_app; right; now left|]. split; [exact M|lia].
Qed.
