(** Proofs about fragmentation and reassembly. *)
From Verif Require Import Base BaseFacts SpecBase Bits Layouts BitsFacts Crc SpecFcs Enums Common CommonFacts Elements SpecElements SpecElementTypes Mgmt SpecMgmt MgmtFacts2
  Data SpecData DataFacts DataFacts2 Generic SpecGeneric SpecPortable SpecDelivery DeliveryFacts SpecNoise NoiseFacts SpecAccessors AccessorFacts2 SpecFragment.

(** ** Pieces *)
Lemma has_piece_spec copies k i : has_piece copies k i = true <-> exists c, In c copies /\ of_message c = k /\ of_piece c = i.
Proof.
  unfold has_piece. rewrite existsb_exists. split; intros (c & I & H); exists c; (split; [exact I|]).
  - apply andb_true_iff in H as [H1 H2]. apply Nat.eqb_eq in H1, H2. auto.
  - destruct H as [-> ->]. now rewrite !Nat.eqb_refl.
Qed.
Lemma has_piece_app pre d k i : has_piece (pre ++ [d]) k i = has_piece pre k i || ((of_message d =? k) && (of_piece d =? i)).
Proof. unfold has_piece. rewrite existsb_app. cbn [existsb]. now rewrite orb_false_r. Qed.
Lemma forallb_ext_in {A} (f g : A -> bool) l : (forall x, In x l -> f x = g x) -> forallb f l = forallb g l.
Proof. induction l as [|x l IH]; intros H; [reflexivity|]. cbn [forallb]. rewrite (H x) by now left. rewrite IH; [reflexivity|]. intros y I. apply H. now right. Qed.
Lemma concat_firstn_S (l : list bytes) i : i < length l -> concat (firstn (S i) l) = concat (firstn i l) ++ nth i l [].
Proof.
  revert i. induction l as [|x l IH]; intros i L; [cbn in L; lia|]. destruct i as [|i]; [cbn; apply app_nil_r|]. cbn [length] in L.
  change (firstn (S (S i)) (x :: l)) with (x :: firstn (S i) l). cbn [concat nth]. rewrite IH by lia. change (firstn (S i) (x :: l)) with (x :: firstn i l). cbn [concat]. apply app_assoc.
Qed.

Section Filter.
Variable messages : nat -> Split.
Let from k := dh_a2 (sp_header (messages k)).
Let size k := pieces_of (messages k).
Let number k := sp_number (messages k).
Let pieces k := sp_pieces (messages k).
Definition seq_of (c : PieceCopy) : N := sequence_control (N.of_nat (of_piece c)) (number (of_message c)).
Definition got_copy (c : PieceCopy) : Piece :=
  mkPiece (from (of_message c)) (seq_of c) (is_again c) (S (of_piece c) <? size (of_message c)) (piece (messages (of_message c)) (of_piece c)).
Definition ok_copy (c : PieceCopy) : Prop := ok_split (messages (of_message c)) /\ of_piece c < size (of_message c).
Lemma seq_of_parts c : ok_copy c -> seq_fragment_number (seq_of c) = N.of_nat (of_piece c) /\ seq_sequence_number (seq_of c) = number (of_message c).
Proof.
  intros [(_ & _ & _ & _ & S & (_ & L) & _) P]. apply sequence_numbers; [unfold size in P; lia|exact S].
Qed.
Definition progress (pre : list PieceCopy) (k i : nat) : option bytes :=
  if forallb (has_piece pre k) (seq 0 (S i)) then Some (concat (firstn (S i) (pieces k))) else None.
Definition remembers (memory : list (bytes * Partial)) (pre : list PieceCopy) : Prop :=
  forall a, match partial memory a with
            | None => forall c, In c pre -> from (of_message c) <> a
            | Some (s, st) => exists u c v, pre = u ++ c :: v /\ from (of_message c) = a /\ s = seq_of c /\ (forall x, In x v -> from (of_message x) <> a) /\
                st = (if S (of_piece c) <? size (of_message c) then progress pre (of_message c) (of_piece c) else None)
            end.
Definition rules (l : list PieceCopy) : Prop :=
  Forall ok_copy l /\ pieces_marked l /\ pieces_ordered from l /\
  (forall c d, following from l c d -> number (of_message c) <> number (of_message d)).

Section Step.
Variables (pre rest : list PieceCopy) (d : PieceCopy).
Hypothesis R : rules (pre ++ d :: rest).
Let k := of_message d.
Let i := of_piece d.
Lemma ok_d : ok_copy d.
Proof. destruct R as (F & _). apply Forall_app in F as [_ F]. now inversion F. Qed.
(** an earlier piece of the same message: the last one of its transmitter is of the message, too, and not in front of it *)
Lemma last_same u c v c0 : pre = u ++ c :: v -> from (of_message c) = from k -> (forall x, In x v -> from (of_message x) <> from k) ->
  In c0 pre -> of_message c0 = k -> of_message c = k /\ of_piece c0 <= of_piece c.
Proof.
  intros E F V I M. rewrite E in I. apply in_app_or in I. destruct I as [I|[->|I]].
  - apply in_split in I. destruct I as (u1 & u2 & ->). destruct R as (_ & _ & O & _).
    assert (E2 : pre ++ d :: rest = u1 ++ c0 :: (u2 ++ c :: v) ++ d :: rest) by (rewrite E; repeat (rewrite <- app_assoc || rewrite <- app_comm_cons); reflexivity).
    destruct (O _ _ _ _ _ E2 (eq_sym M)) as [_ B].
    assert (Mc : of_message c = k). { rewrite <- M. apply B; [apply in_or_app; right; now left|now rewrite M]. }
    split; [exact Mc|].
    assert (E3 : pre ++ d :: rest = u1 ++ c0 :: u2 ++ c :: (v ++ d :: rest)) by (rewrite E; repeat (rewrite <- app_assoc || rewrite <- app_comm_cons); reflexivity).
    destruct (O _ _ _ _ _ E3) as [L _]; [congruence|exact L].
  - split; [exact M|lia].
  - exfalso. apply (V c0 I). now rewrite M.
Qed.
Lemma last_ok u c v : pre = u ++ c :: v -> ok_copy c.
Proof. intros E. destruct R as (F & _). rewrite E in F. apply Forall_app in F as [F _]. apply Forall_app in F as [_ F]. now inversion F. Qed.
Lemma last_other u c v : pre = u ++ c :: v -> from (of_message c) = from k -> (forall x, In x v -> from (of_message x) <> from k) ->
  of_message c <> k -> number (of_message c) <> number k.
Proof.
  intros E F V M. destruct R as (_ & _ & _ & N). apply (N c d). exists u, v, rest. split; [rewrite E; now rewrite <- app_assoc|]. split; [exact M|]. split; [exact F|].
  intros x I. rewrite F. now apply V.
Qed.
Lemma last_before u c v : pre = u ++ c :: v -> of_message c = k -> of_piece c <= i.
Proof. intros E M. destruct R as (_ & _ & O & _). destruct (O u c v d rest) as [L _]; [rewrite E; now rewrite <- app_assoc|now symmetry|exact L]. Qed.

Lemma repetition_spec memory : remembers memory pre -> repetition (partial memory (from k)) (got_copy d) = has_piece pre k i.
Proof.
  intros Rm. specialize (Rm (from k)). unfold repetition. cbn [got_copy pc_retry pc_seq].
  destruct (partial memory (from k)) as [[s st]|].
  - destruct Rm as (u & c & v & E & F & -> & V & _). destruct (has_piece pre k i) eqn:H.
    + apply has_piece_spec in H. destruct H as (c0 & I & M & P).
      destruct (last_same u c v c0 E F V I M) as [Mc Lc]. pose proof (last_before u c v E Mc) as Ld.
      assert (Pc : of_piece c = i) by (fold i in Ld; lia).
      assert (A : is_again d = true).
      { destruct R as (_ & Mk & _ & _). apply (Mk u c v d rest); [rewrite E; now rewrite <- app_assoc|now symmetry|now symmetry]. }
      rewrite A. cbn [andb]. unfold seq_of. rewrite Mc, Pc. apply N.eqb_refl.
    + destruct (is_again d); [|reflexivity]. cbn [andb]. apply N.eqb_neq. intros Z.
      destruct (seq_of_parts c (last_ok u c v E)) as [S1 S2]. destruct (seq_of_parts d ok_d) as [T1 T2]. rewrite Z in S1, S2.
      destruct (Nat.eq_dec (of_message c) k) as [Mc|Mc].
      * assert (Pc : of_piece c = i) by (apply Nat2N.inj; rewrite <- S1; exact T1).
        assert (Y : has_piece pre k i = true). { apply has_piece_spec. exists c. split; [rewrite E; apply in_or_app; right; now left|auto]. } congruence.
      * apply (last_other u c v E F V Mc). rewrite <- S2. exact T2.
  - rewrite andb_false_r. destruct (has_piece pre k i) eqn:H; [|reflexivity]. exfalso.
    apply has_piece_spec in H. destruct H as (c0 & I & M & _). apply (Rm c0 I). now rewrite M.
Qed.
Lemma joined_spec memory : remembers memory pre -> has_piece pre k i = false -> joined (partial memory (from k)) (got_copy d) = progress (pre ++ [d]) k i.
Proof.
  intros Rm H. specialize (Rm (from k)). unfold joined. cbn [got_copy pc_seq pc_bytes].
  destruct (seq_of_parts d ok_d) as [T1 T2]. rewrite T1, T2. fold i. fold k. destruct ok_d as [_ Ld]. fold i k in Ld.
  destruct (Nat.eq_dec i 0) as [Z|Z].
  - rewrite Z. cbn [N.of_nat N.eqb]. unfold progress. cbn [seq forallb]. rewrite has_piece_app. fold k i. rewrite Nat.eqb_refl, Z. cbn [andb Nat.eqb]. rewrite orb_true_r. cbn [andb].
    unfold piece. fold (pieces k). rewrite concat_firstn_S by (unfold size, pieces_of in Ld; fold (pieces k) in Ld; lia). reflexivity.
  - destruct (N.of_nat i =? 0)%N eqn:Q; [apply N.eqb_eq in Q; lia|]. clear Q.
    assert (Old : forall j, j <> i -> has_piece (pre ++ [d]) k j = has_piece pre k j).
    { intros j J. rewrite has_piece_app. fold k i. rewrite Nat.eqb_refl. destruct (Nat.eqb_spec i j); [congruence|]. apply orb_false_r. }
    assert (Never : forall j, j < i -> has_piece pre k j = false -> progress (pre ++ [d]) k i = None).
    { intros j J Hj. unfold progress. replace (forallb _ _) with false; [reflexivity|]. symmetry. apply not_true_iff_false. intros Y. rewrite forallb_forall in Y.
      specialize (Y j). rewrite Old, Hj in Y by lia. discriminate Y. apply in_seq. lia. }
    destruct (partial memory (from k)) as [[s st]|].
    + destruct Rm as (u & c & v & E & F & -> & V & ->). destruct (seq_of_parts c (last_ok u c v E)) as [S1 S2]. rewrite S1, S2.
      destruct (Nat.eq_dec (of_message c) k) as [Mc|Mc].
      * pose proof (last_before u c v E Mc) as Lc. rewrite Mc, N.eqb_refl. cbn [andb].
        assert (Pc : of_piece c <> i). { intros Y. assert (W : has_piece pre k i = true) by (apply has_piece_spec; exists c; split; [rewrite E; apply in_or_app; right; now left|auto]). congruence. }
        destruct (Nat.ltb_spec (S (of_piece c)) (size k)) as [L1|L1]; [|lia].
        destruct (Nat.eq_dec (S (of_piece c)) i) as [Y|Y].
        -- replace (N.of_nat (of_piece c) + 1 =? N.of_nat i)%N with true by (symmetry; apply N.eqb_eq; lia). unfold progress at 1. rewrite Y.
           unfold progress. rewrite (seq_S i 0), forallb_app. cbn [forallb]. rewrite has_piece_app. cbn [Nat.add]. fold k i. rewrite !Nat.eqb_refl. cbn [andb]. rewrite orb_true_r. cbn [andb].
           rewrite andb_true_r. rewrite (forallb_ext_in (has_piece (pre ++ [d]) k) (has_piece pre k)) by (intros j J; apply in_seq in J; apply Old; lia).
           destruct (forallb (has_piece pre k) (seq 0 i)); [|reflexivity]. f_equal. rewrite (concat_firstn_S (pieces k) i) by (unfold size, pieces_of in Ld; fold (pieces k) in Ld; lia). reflexivity.
        -- replace (N.of_nat (of_piece c) + 1 =? N.of_nat i)%N with false by (symmetry; apply N.eqb_neq; lia).
           destruct (has_piece pre k (i - 1)) eqn:W.
           ++ exfalso. apply has_piece_spec in W. destruct W as (c0 & I & M & P). destruct (last_same u c v c0 E F V I M) as [_ W]. lia.
           ++ rewrite (Never (i - 1)) by (auto; lia). destruct (progress pre k (of_piece c)); reflexivity.
      * assert (W : has_piece pre k 0 = false).
        { apply not_true_iff_false. intros W. apply has_piece_spec in W. destruct W as (c0 & I & M & _). destruct (last_same u c v c0 E F V I M) as [W _]. contradiction. }
        rewrite (Never 0) by (auto; lia). destruct (N.eqb_spec (number (of_message c)) (number k)) as [Y|Y]; [exfalso; now apply (last_other u c v E F V Mc)|].
        cbn [andb]. destruct (if _ <? _ then _ else _); reflexivity.
    + symmetry. apply (Never 0); [lia|]. apply not_true_iff_false. intros W. apply has_piece_spec in W. destruct W as (c0 & I & M & _). apply (Rm c0 I). now rewrite M.
Qed.
(** the memory afterwards *)
Lemma keeps_other memory a : remembers memory pre -> a <> from k ->
  match partial memory a with
  | None => forall c, In c (pre ++ [d]) -> from (of_message c) <> a
  | Some (s, st) => exists u c v, pre ++ [d] = u ++ c :: v /\ from (of_message c) = a /\ s = seq_of c /\ (forall x, In x v -> from (of_message x) <> a) /\
      st = (if S (of_piece c) <? size (of_message c) then progress (pre ++ [d]) (of_message c) (of_piece c) else None)
  end.
Proof.
  intros Rm A. specialize (Rm a). destruct (partial memory a) as [[s st]|].
  - destruct Rm as (u & c & v & E & F & -> & V & ->). exists u, c, (v ++ [d]). split; [rewrite E, <- app_assoc; reflexivity|]. split; [exact F|]. split; [reflexivity|].
    split; [intros x I; apply in_app_or in I; destruct I as [I|[<-|[]]]; [now apply V|exact (fun z => A (eq_sym z))]|].
    destruct (S (of_piece c) <? size (of_message c)); [|reflexivity]. unfold progress.
    rewrite (forallb_ext_in (has_piece (pre ++ [d]) (of_message c)) (has_piece pre (of_message c))); [reflexivity|].
    intros j _. rewrite has_piece_app. destruct (Nat.eqb_spec (of_message d) (of_message c)) as [Z|Z]; [|apply orb_false_r]. exfalso. apply A. rewrite <- F, <- Z. reflexivity.
  - intros c I. apply in_app_or in I. destruct I as [I|[<-|[]]]; [now apply Rm|exact (fun z => A (eq_sym z))].
Qed.
Lemma keeps_memory memory : remembers memory pre -> has_piece pre k i = true -> remembers memory (pre ++ [d]).
Proof.
  intros Rm H a. destruct (list_eq_dec N.eq_dec a (from k)) as [->|A]; [|now apply keeps_other].
  pose proof (Rm (from k)) as Rk. apply has_piece_spec in H. destruct H as (c0 & I & M & P). destruct (partial memory (from k)) as [[s st]|].
  - destruct Rk as (u & c & v & E & F & -> & V & ->). destruct (last_same u c v c0 E F V I M) as [Mc Lc]. pose proof (last_before u c v E Mc) as Ld.
    assert (Pc : of_piece c = i) by lia. exists pre, d, []. split; [reflexivity|]. split; [reflexivity|].
    split; [unfold seq_of; fold k i; now rewrite Mc, Pc|]. split; [intros x []|]. fold k i. rewrite Mc, Pc. destruct (S i <? size k); [|reflexivity]. unfold progress.
    rewrite (forallb_ext_in (has_piece (pre ++ [d]) k) (has_piece pre k)); [reflexivity|].
    intros j _. rewrite has_piece_app. fold k i. destruct (Nat.eqb_spec i j) as [<-|Z]; [|rewrite andb_false_r; apply orb_false_r].
    assert (W : has_piece pre k i = true) by (apply has_piece_spec; exists c0; auto). now rewrite W.
  - exfalso. apply (Rk c0 I). now rewrite M.
Qed.
Lemma new_memory memory : remembers memory pre ->
  remembers ((from k, (seq_of d, if S i <? size k then progress (pre ++ [d]) k i else None)) :: memory) (pre ++ [d]).
Proof.
  intros Rm a. cbn [partial]. destruct (list_eq_dec N.eq_dec (from k) a) as [<-|A]; [|apply keeps_other; auto].
  exists pre, d, []. split; [reflexivity|]. split; [reflexivity|]. split; [reflexivity|]. split; [intros x []|reflexivity].
Qed.
End Step.

Lemma reassemble_finished : forall rest pre memory, rules (pre ++ rest) -> remembers memory pre ->
  reassemble memory (map (fun c => Some (got_copy c)) rest) = map (fun k => (from k, concat (pieces k))) (finished size pre rest).
Proof.
  induction rest as [|d rest IH]; intros pre memory R Rm; [reflexivity|].
  pose proof (repetition_spec pre rest d R memory Rm) as Q. pose proof (joined_spec pre rest d R memory Rm) as J.
  pose proof (keeps_memory pre rest d R memory Rm) as K. pose proof (new_memory pre d memory Rm) as NM. destruct (ok_d pre rest d R) as [_ Ld].
  assert (E : pre ++ d :: rest = (pre ++ [d]) ++ rest) by now rewrite <- app_assoc. rewrite E in R. specialize (IH (pre ++ [d])).
  cbn [map reassemble finished]. change (pc_from (got_copy d)) with (from (of_message d)). rewrite Q.
  destruct (has_piece pre (of_message d) (of_piece d)) eqn:H.
  - cbn [negb andb app]. apply IH; auto.
  - rewrite (J eq_refl). cbn [negb andb]. change (pc_more (got_copy d)) with (S (of_piece d) <? size (of_message d)). change (pc_seq (got_copy d)) with (seq_of d).
    rewrite (IH _ R NM), map_app. f_equal. destruct (Nat.ltb_spec (S (of_piece d)) (size (of_message d))) as [L|L].
    + destruct (Nat.eqb_spec (S (of_piece d)) (size (of_message d))) as [Y|Y]; [lia|]. cbn [andb map]. destruct (progress _ _ _); reflexivity.
    + destruct (Nat.eqb_spec (S (of_piece d)) (size (of_message d))) as [Y|Y]; [|lia]. cbn [andb]. unfold progress. rewrite Y.
      destruct (forallb (has_piece (pre ++ [d]) (of_message d)) (seq 0 (size (of_message d)))); [|reflexivity]. cbn [map].
      unfold size, pieces_of. fold (pieces (of_message d)). rewrite firstn_all. reflexivity.
Qed.
End Filter.
