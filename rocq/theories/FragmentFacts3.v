(** Fragmentation: checking histories, and what goes wrong on big endian machines. *)
From Verif Require Import Base BaseFacts SpecBase Crc SpecFcs Enums Common Elements SpecElements SpecElementTypes Mgmt SpecMgmt MgmtFacts2
  Data SpecData DataFacts2 Generic SpecGeneric SpecPortable SpecDelivery DeliveryFacts SpecNoise NoiseFacts SpecAccessors SpecFragment FragmentFacts FragmentFacts2 RetryFacts2.

Definition same_message (c d : PieceCopy) : bool := of_message c =? of_message d.
Definition sameb (a b : bytes) : bool := if list_eq_dec N.eq_dec a b then true else false.
Lemma sameb_spec a b : sameb a b = true <-> a = b.
Proof. unfold sameb. destruct (list_eq_dec N.eq_dec a b); split; congruence. Qed.
Definition markedb (l : list PieceCopy) : bool :=
  forallb (fun '(c, _, d) => negb (same_message d c && (of_piece d =? of_piece c)) || is_again d) (pairs l).
Definition orderedb (from : nat -> bytes) (l : list PieceCopy) : bool :=
  forallb (fun '(c, b, d) => negb (same_message d c) ||
    (of_piece c <=? of_piece d) && forallb (fun x => negb (sameb (from (of_message x)) (from (of_message c))) || same_message x c) b) (pairs l).
Definition followingb (counter : nat -> N) (from : nat -> bytes) (l : list PieceCopy) : bool :=
  forallb (fun '(c, b, d) => same_message c d || negb (sameb (from (of_message c)) (from (of_message d)))
    || existsb (fun x => sameb (from (of_message x)) (from (of_message c))) b
    || ((counter (of_message c) <? counter (of_message d)) && (counter (of_message d) <? counter (of_message c) + 4096))%N) (pairs l).
Lemma marked_check l : markedb l = true -> pieces_marked l.
Proof.
  intros H a c b d e -> M P. unfold markedb in H. rewrite forallb_forall in H. specialize (H _ (pairs_in a c b d e)). cbn beta iota in H.
  unfold same_message in H. rewrite M, P, !Nat.eqb_refl in H. exact H.
Qed.
Lemma ordered_check from l : orderedb from l = true -> pieces_ordered from l.
Proof.
  intros H a c b d e -> M. unfold orderedb in H. rewrite forallb_forall in H. specialize (H _ (pairs_in a c b d e)). cbn beta iota in H.
  unfold same_message in H at 1. rewrite M, Nat.eqb_refl in H. cbn [negb orb] in H. apply andb_true_iff in H as [H1 H2]. apply Nat.leb_le in H1. split; [exact H1|].
  intros x I F. rewrite forallb_forall in H2. specialize (H2 x I). apply sameb_spec in F. rewrite F in H2. cbn [negb orb] in H2. now apply Nat.eqb_eq.
Qed.
Lemma following_check counter from l c d : followingb counter from l = true -> following from l c d ->
  (counter (of_message c) < counter (of_message d) < counter (of_message c) + 4096)%N.
Proof.
  intros H (a & b & e & -> & M & F & B). unfold followingb in H. rewrite forallb_forall in H. specialize (H _ (pairs_in a c b d e)). cbn beta iota in H.
  unfold same_message in H. apply Nat.eqb_neq in M. apply sameb_spec in F. rewrite M, F in H. cbn [negb orb] in H.
  replace (existsb _ b) with false in H.
  - cbn [orb] in H. apply andb_true_iff in H as [H1 H2]. apply N.ltb_lt in H1, H2. auto.
  - symmetry. apply not_true_iff_false. intros X. apply existsb_exists in X. destruct X as (x & I & X). apply sameb_spec in X. exact (B x I X).
Qed.

(** one arm, for data frames *)
Definition data_only {cfg : Cfg} : list (nat * Arm (option Piece)) := [(12, mkArm _ _ data_kind rd_data got_piece)].
Lemma data_only_typed {cfg : Cfg} : typed_arms data_only.
Proof. split; [repeat constructor; cbn; intros H; decompose [or] H; try discriminate; contradiction|]. repeat constructor; eexists; reflexivity. Qed.
Definition split_of (from : bytes) (number : N) (pieces : list bytes) : Split := mkSplit (mkDH Dt_Data 1 0x2c2c ap from (repeat 3%N 6) 0 None None None) number pieces.
Lemma split_ok from number pieces : address from -> (number < 4096)%N -> 1 <= length pieces <= 16 -> Forall wf_bytes pieces -> ok_split (split_of from number pieces).
Proof.
  intros A N L F. unfold ok_split. cbn [split_of sp_header sp_number sp_pieces]. unfold pieces_of. cbn [sp_pieces].
  assert (O : ok_data_header (sp_header (split_of from number pieces))).
  { unfold ok_data_header. cbn [split_of sp_header dh_subtype dh_flags dh_duration dh_a1 dh_a2 dh_a3 dh_seq dh_a4 dh_qos dh_ht]. repeat split; try reflexivity; try apply A; repeat constructor. }
  split; [exact O|]. split; [reflexivity|]. split; [reflexivity|]. split; [reflexivity|]. auto.
Qed.
(** On big endian machines sequence number 16 is read as fragment number 1 of message 0: the only piece of a message is not taken. *)
Lemma reassembled_big_endian {cfg : Cfg} : native_le = false -> exists (l : list (nat * Arm (option Piece))) messages air copies counter, typed_arms l /\
  In (12, mkArm _ _ data_kind rd_data got_piece) l /\ heard_air l messages air copies /\
  (let from k := dh_a2 (sp_header (messages k)) in
   pieces_marked copies /\ pieces_ordered from copies /\ messages_counted counter messages from copies /\
   exists ps, station (map snd l) air = Ok ps /\ length (finished (fun k => pieces_of (messages k)) [] copies) = 1 /\ reassemble [] ps = []).
Proof.
  intros NB. set (m := split_of sta 16 [[7; 7]%N]).
  assert (OK : ok_split m) by (apply split_ok; [split; [reflexivity|apply wf_bytesb_spec; reflexivity]|reflexivity|cbn; lia|repeat constructor]).
  exists data_only, (fun _ => m), [piece_frame m 0 false], [mkPC 0 0 false], (fun _ => 16%N).
  split; [exact data_only_typed|]. split; [now left|]. split; [apply (air_copy data_only (fun _ => m) (mkPC 0 0 false) [] []); [exact OK|cbn; lia|constructor]|].
  split; [apply marked_check; reflexivity|]. split; [apply ordered_check; reflexivity|]. split.
  { split; [intros c _; reflexivity|]. intros c d F. destruct F as ([|x [|]] & b & e & E & _); cbn in E; injection E as _ E; try discriminate E; destruct b; discriminate E. }
  eexists. split; [|split; [vm_compute; reflexivity|]].
  - destruct cfg as [[] n []]; cbn in NB; subst n; vm_compute; reflexivity.
  - destruct cfg as [[] n []]; cbn in NB; subst n; vm_compute; reflexivity.
Qed.
