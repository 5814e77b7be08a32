(** Proofs about what the kind of a writing error tells. *)
From Verif Require Import Base BaseFacts SpecBase Crc Elements Amsdu Stores SpecTorn TornFacts SpecErrors.

Section Facts.
Context {cfg : Cfg}.
Lemma end_bad_longer off a b : a <= b -> end_bad off a = false -> end_bad off b = false.
Proof. unfold end_bad. destruct strict_end; rewrite ?Nat.leb_gt, ?Nat.ltb_ge; lia. Qed.
(** the same size and a larger buffer *)
Definition mono (p : Prog) : Prop := forall a b a' n, exec p a = Ok (a', n) -> length a <= length b -> exists b', exec p b = Ok (b', n).
Definition keeps_bad (p : Prog) : Prop := forall a b, exec p a = Err BadInput -> length a <= length b -> exec p b = Err BadInput.
Lemma exec_length p a a' n : exec p a = Ok (a', n) -> length a' = length a.
Proof. intros E. destruct (exec_good p _ _ _ E) as [_ [L _]]. exact L. Qed.
Lemma gwrite_length p a off a' n : gwrite (exec p) a off = Ok (a', n) -> length a' = length a.
Proof. intros E. destruct (gwrite_inv _ _ _ _ _ (exec_good p) E) as (_ & _ & [L _]). exact L. Qed.
Lemma gwrite_mono p a b off a' n : mono p -> gwrite (exec p) a off = Ok (a', n) -> length a <= length b -> exists b', gwrite (exec p) b off = Ok (b', n).
Proof.
  intros M E L. unfold gwrite in *. destruct (end_bad off (length a)) eqn:B; [discriminate|]. rewrite (end_bad_longer _ _ _ L B).
  destruct (exec p (skipn off a)) as [[x m]| |] eqn:X; try discriminate.
  destruct (M _ (skipn off b) _ _ X) as [y ->]; [rewrite !skipn_length; lia|]. injection E as _ <-. eauto.
Qed.
Lemma gwrite_bad p a b off : keeps_bad p -> gwrite (exec p) a off = Err BadInput -> length a <= length b -> gwrite (exec p) b off = Err BadInput.
Proof.
  intros M E L. unfold gwrite in *. destruct (end_bad off (length a)) eqn:B; [discriminate|]. rewrite (end_bad_longer _ _ _ L B).
  destruct (exec p (skipn off a)) as [[x m]|e|] eqn:X; try discriminate. injection E as ->.
  rewrite (M _ (skipn off b) X); [reflexivity|rewrite !skipn_length; lia].
Qed.
Lemma store_mono bs : mono (Store bs).
Proof.
  intros a b a' n. cbn [exec]. unfold wr_bytes. destruct (Nat.ltb_spec (length a) (length bs)); [discriminate|]. intros [= _ <-] L.
  rewrite (proj2 (Nat.ltb_ge _ _)) by lia. eauto.
Qed.
Lemma store_bad bs : keeps_bad (Store bs).
Proof. intros a b. cbn [exec]. unfold wr_bytes. destruct (_ <? _); discriminate. Qed.
Lemma steps_mono ps : Forall mono ps -> forall a b off a' n, wseq_from (map exec ps) a off = Ok (a', n) -> length a <= length b ->
  exists b', wseq_from (map exec ps) b off = Ok (b', n).
Proof.
  induction 1 as [|p ps M _ IH]; intros a b off a' n E L; cbn [map wseq_from] in *; [injection E as _ <-; eauto|].
  destruct (gwrite (exec p) a off) as [[a1 o1]| |] eqn:G; cbn [rbind] in E; try discriminate.
  destruct (gwrite_mono _ _ b _ _ _ M G L) as [b1 G']. rewrite G'. cbn [rbind]. eapply IH; [exact E|].
  rewrite (gwrite_length _ _ _ _ _ G), (gwrite_length _ _ _ _ _ G'). exact L.
Qed.
Lemma steps_bad ps : Forall mono ps -> Forall keeps_bad ps -> forall a b off, wseq_from (map exec ps) a off = Err BadInput -> length a <= length b ->
  wseq_from (map exec ps) b off = Err BadInput.
Proof.
  induction 1 as [|p ps M _ IH]; intros K a b off E L; cbn [map wseq_from] in *; [discriminate|]. apply Forall_cons_iff in K as [K Ks].
  destruct (gwrite (exec p) a off) as [[a1 o1]|e|] eqn:G; cbn [rbind] in E; try discriminate.
  - destruct (gwrite_mono _ _ b _ _ _ M G L) as [b1 G']. rewrite G'. cbn [rbind]. eapply IH; [exact Ks|exact E|].
    rewrite (gwrite_length _ _ _ _ _ G), (gwrite_length _ _ _ _ _ G'). exact L.
  - injection E as ->. rewrite (gwrite_bad _ _ b _ K G L). reflexivity.
Qed.
Lemma slice_from_err (l : bytes) o e : @slice_from serr l o <> Err e.
Proof. unfold slice_from. destruct (_ <=? _); discriminate. Qed.
Lemma slice_to_err (l : bytes) o e : @slice_to serr l o <> Err e.
Proof. unfold slice_to. destruct (_ <=? _); discriminate. Qed.
Lemma slice_from_longer (a b : bytes) o r : @slice_from serr a o = Ok r -> length a <= length b -> @slice_from serr b o = Ok (skipn o b).
Proof. intros E L. apply slice_from_inv in E as [E _]. unfold slice_from. now rewrite (proj2 (Nat.leb_le _ _)) by lia. Qed.
Lemma slice_to_longer (a b : bytes) o r : @slice_to serr a o = Ok r -> length a <= length b -> @slice_to serr b o = Ok (firstn o b).
Proof. intros E L. apply slice_to_inv in E as [E _]. unfold slice_to. now rewrite (proj2 (Nat.leb_le _ _)) by lia. Qed.

Lemma exec_mono p : mono p /\ keeps_bad p.
Proof.
  induction p as [bs|ps IH|e| |body last IH|be n body value IH|body IH|body IH] using Prog_ind'.
  - split; [apply store_mono|apply store_bad].
  - assert (M : Forall mono ps) by (eapply Forall_impl; [|exact IH]; intros ? [? ?]; assumption). assert (K : Forall keeps_bad ps) by (eapply Forall_impl; [|exact IH]; intros ? [? ?]; assumption).
    split; [intros a b a' n; cbn [exec]; apply steps_mono; exact M|intros a b; cbn [exec]; apply steps_bad; assumption].
  - split; [discriminate|]. intros a b E _. exact E.
  - split; discriminate.
  - destruct IH as [M K]. split.
    + intros a b a' m. cbn [exec]. destruct (exec body a) as [[a1 off]| |] eqn:X; cbn [rbind]; try discriminate. destruct last as [bs|]; [|discriminate].
      intros E L. destruct (M _ b _ _ X L) as [b1 X']. rewrite X'. cbn [rbind].
      assert (L1 : length a1 <= length b1) by (rewrite (exec_length _ _ _ _ X), (exec_length _ _ _ _ X'); exact L).
      destruct (slice_from a1 off) as [r| |] eqn:S; cbn [rbind] in E; try discriminate. rewrite (slice_from_longer _ _ _ _ S L1). cbn [rbind].
      destruct (slice_to r (length bs)) as [t| |] eqn:T; cbn [rbind] in E; try discriminate. apply slice_from_inv in S as [S ->].
      rewrite (slice_to_longer _ (skipn off b1) _ _ T) by (rewrite !skipn_length; lia). cbn [rbind]. injection E as _ <-. eauto.
    + intros a b. cbn [exec]. destruct (exec body a) as [[a1 off]|e|] eqn:X; cbn [rbind]; try discriminate.
      * destruct last as [bs|]; [|discriminate]. intros E _. exfalso. destruct (slice_from a1 off) as [r|e|] eqn:S; cbn [rbind] in E; try discriminate; [|now apply slice_from_err in S].
        destruct (slice_to r (length bs)) as [t|e|] eqn:T; cbn [rbind] in E; try discriminate. now apply slice_to_err in T.
      * intros [= ->] L. now rewrite (K _ b X L).
  - destruct IH as [M K]. split.
    + intros a b a' m. cbn [exec]. destruct (gwrite (exec body) a n) as [[a1 off]| |] eqn:X; cbn [rbind]; try discriminate.
      intros E L. destruct (gwrite_mono _ _ b _ _ _ M X L) as [b1 X']. rewrite X'. cbn [rbind].
      assert (L1 : length a1 <= length b1) by (rewrite (gwrite_length _ _ _ _ _ X), (gwrite_length _ _ _ _ _ X'); exact L).
      unfold pwrite in *. set (f := field_bytes be n (value (off - n))) in *.
      destruct (gwrite (wr_bytes f) a1 0) as [[a2 k]| |] eqn:Y; cbn [rbind] in E; try discriminate.
      destruct (gwrite_mono (Store f) _ b1 _ _ _ (store_mono f) Y L1) as [b2 Y']. cbn [exec] in Y'. rewrite Y'. cbn [rbind]. injection E as _ <-. eauto.
    + intros a b. cbn [exec]. destruct (gwrite (exec body) a n) as [[a1 off]|e|] eqn:X; cbn [rbind]; try discriminate.
      * unfold pwrite, gwrite at 1. destruct (end_bad _ _); [discriminate|]. unfold wr_bytes. destruct (_ <? _); discriminate.
      * intros [= ->] L. now rewrite (gwrite_bad _ _ b _ K X L).
  - destruct IH as [M K]. split.
    + intros a b a' m. cbn [exec]. destruct (exec body a) as [[a1 off]| |] eqn:X; cbn [rbind]; try discriminate.
      intros E L. destruct (M _ b _ _ X L) as [b1 ->]. cbn [rbind]. injection E as _ <-. eauto.
    + intros a b. cbn [exec]. destruct (exec body a) as [[a1 off]|e|] eqn:X; cbn [rbind]; try discriminate. intros [= ->] L. now rewrite (K _ b X L).
  - destruct IH as [M K]. split.
    + intros a b a' m. cbn [exec]. destruct (exec body a) as [[a1 off]| |] eqn:X; cbn [rbind]; try discriminate.
      intros E L. destruct (M _ b _ _ X L) as [b1 X']. rewrite X'. cbn [rbind].
      assert (L1 : length a1 <= length b1) by (rewrite (exec_length _ _ _ _ X), (exec_length _ _ _ _ X'); exact L).
      unfold attach_fcs in *. destruct (slice_to a1 off) as [t| |] eqn:T; cbn [rbind] in E; try discriminate. rewrite (slice_to_longer _ _ _ _ T L1). cbn [rbind].
      assert (N : m = off + 4) by (destruct (gwrite_inv (Store (le_bytes 4 (crc32 t))) _ _ _ _ (store_good _) E) as (_ & -> & _); cbn [image]; now rewrite map_length, le_bytes_length).
      subst m. unfold gwrite in *. destruct (end_bad off (length a1)) eqn:B; [discriminate|]. rewrite (end_bad_longer _ _ _ L1 B).
      unfold wr_le, wr_bytes in *. rewrite !le_bytes_length, !skipn_length in *.
      destruct (Nat.ltb_spec (length a1 - off) 4); [discriminate|]. rewrite (proj2 (Nat.ltb_ge _ _)) by lia. eauto.
    + intros a b. cbn [exec]. destruct (exec body a) as [[a1 off]|e|] eqn:X; cbn [rbind]; try discriminate.
      * intros E _. exfalso. unfold attach_fcs in E. destruct (slice_to a1 off) as [t|e|] eqn:T; cbn [rbind] in E; try discriminate; [|now apply slice_to_err in T].
        unfold gwrite in E. destruct (end_bad _ _); [discriminate|]. unfold wr_le, wr_bytes in E. destruct (_ <? _); discriminate.
      * intros [= ->] L. now rewrite (K _ b X L).
Qed.
Lemma bad_unwritable w p buf : Runs w p -> w buf = Err BadInput -> Unwritable w.
Proof.
  intros R E b [x n] X. rewrite R in E, X. destruct (exec_mono p) as [M K].
  destruct (Nat.le_ge_cases (length buf) (length b)) as [L|L].
  - rewrite (K _ b E L) in X. discriminate.
  - destruct (M _ buf _ _ X L) as [y Y]. congruence.
Qed.
(** a value with an encoding *)
Lemma encoded_error w p bs buf e : Runs w p -> Writes w bs -> w buf = Err e ->
  e <> BadInput /\ exists more r, w (buf ++ more) = Ok r.
Proof.
  intros R W E. assert (X : w (buf ++ repeat 0%N (length bs + slack)) = Ok (bs ++ skipn (length bs) (buf ++ repeat 0%N (length bs + slack)), length bs))
    by (apply (writes_ok _ _ W); rewrite app_length, repeat_length; lia).
  split; [|eauto]. intros ->. exact (bad_unwritable _ _ _ R E _ _ X).
Qed.
(** a larger buffer never turns a success into a failure *)
Lemma larger_buffer w p a b a' n : Runs w p -> w a = Ok (a', n) -> length a <= length b -> exists b', w b = Ok (b', n).
Proof. intros R E L. rewrite R in *. exact (proj1 (exec_mono p) _ _ _ _ E L). Qed.
End Facts.
