(** What a failing write leaves behind: the front of the encoding, and the programs of the writers. *)
From Verif Require Import Base SpecBase BaseFacts Bits Layouts Enums Common Crc Elements ElementTypes Tim Rsn Mgmt Amsdu CryptoHeader Data
  Control Eapol Accessors Stores SpecTorn TornFacts.

Lemma nth_repeat_lt {A} (x d : A) n i : i < n -> nth i (repeat x n) d = x.
Proof. revert i; induction n as [|n IH]; intros i H; [lia|]. destruct i; [reflexivity|]. cbn. apply IH. lia. Qed.

Lemma firstn_map' {A B} (f : A -> B) k l : map f (firstn k l) = firstn k (map f l).
Proof. revert l; induction k as [|k IH]; intros [|x l]; [reflexivity..|]. cbn. rewrite IH. reflexivity. Qed.

Section Facts.
Context {cfg : Cfg}.
(** ** The image is the encoding *)
Lemma check_kept p : In Check (image p) -> In Kept (image p).
Proof.
  induction p as [bs|ps IH|e| |body last IH|be n body value IH|body IH|body IH] using Prog_ind'; cbn [image].
  - intros H. apply in_map_iff in H. destruct H as (x & E & _). discriminate.
  - intros H. apply in_concat in H. destruct H as (l & Hl & Hc). apply in_map_iff in Hl. destruct Hl as (p & <- & Hp).
    apply in_concat. exists (image p). split; [apply in_map; exact Hp|]. rewrite Forall_forall in IH. apply IH; assumption.
  - intros [].
  - intros [].
  - destruct last as [bs|]; [|exact IH]. rewrite !in_app_iff. intros [H|H]; [left; auto|].
    apply in_map_iff in H. destruct H as (x & E & _). discriminate.
  - rewrite !in_app_iff. intros [H|H]; [|right; auto]. apply in_map_iff in H. destruct H as (x & E & _). discriminate.
  - rewrite !in_app_iff. intros [H|H]; [left; auto|]. apply repeat_spec in H. discriminate.
  - rewrite !in_app_iff. destruct (forallb is_byte (image body)) eqn:B.
    + intros [H|H]; [left; auto|]. apply in_map_iff in H. destruct H as (x & E & _). discriminate.
    + intros _. left. assert (exists c, In c (image body) /\ is_byte c = false) as (c & Hc & E).
      { clear - B. induction (image body) as [|c l IHl]; [discriminate|]. cbn in B. destruct (is_byte c) eqn:E; [|exists c; cbn; auto].
        destruct (IHl B) as (d & Hd & Ed). exists d. cbn. auto. }
      destruct c; [discriminate|exact Hc|apply IH; exact Hc].
Qed.
Lemma image_encoding w p bs : Runs w p -> Writes w bs -> image p = map Byte bs.
Proof.
  intros R W. set (m := length (image p) + length bs + slack).
  assert (T : forall x : N, length (image p) = length bs /\ Done (image p) (repeat x m) (bs ++ skipn (length bs) (repeat x m))).
  { intros x. pose proof (writes_ok _ _ W (repeat x m)) as E. rewrite repeat_length in E. specialize (E ltac:(lia)). rewrite R in E.
    destruct (exec_good _ _ _ _ E) as [E1 E2]. split; [symmetry; exact E1|exact E2]. }
  assert (NK : ~ In Kept (image p)).
  { intros K. apply (In_nth _ _ Kept) in K. destruct K as (i & Hi & E).
    destruct (T 0%N) as (L & _ & D0). destruct (T 1%N) as (_ & _ & D1).
    specialize (D0 i). specialize (D1 i). rewrite repeat_length in D0, D1. specialize (D0 ltac:(lia)). specialize (D1 ltac:(lia)).
    rewrite E in D0, D1. rewrite app_nth1 in D0 by lia. rewrite app_nth1 in D1 by lia. rewrite D0 in D1.
    rewrite !nth_repeat_lt in D1 by lia. discriminate. }
  destruct (T 0%N) as (L & _ & D). apply (nth_ext _ _ Kept Kept); [rewrite map_length; exact L|].
  intros i Hi. specialize (D i). rewrite repeat_length in D. specialize (D ltac:(lia)). rewrite app_nth1 in D by lia.
  rewrite nth_map_byte. replace (i <? length bs) with true by (symmetry; apply Nat.ltb_lt; lia).
  pose proof (nth_In _ Kept Hi) as I. destruct (nth i (image p) Kept) eqn:E; [congruence|contradiction|].
  exfalso. apply NK, check_kept, I.
Qed.

(** ** Programs which store one byte after the other *)
Definition cut (c : list Cell) (buf b' : bytes) : Prop := exists k, k <= length c /\ Done (firstn k c) buf b'.
Lemma firstn_more {A} k (l l' : list A) : k <= length l -> firstn k (l ++ l') = firstn k l.
Proof. intros H. rewrite firstn_app. replace (k - length l) with 0 by lia. cbn [firstn]. apply app_nil_r. Qed.
Lemma firstn_past {A} k (l l' : list A) : firstn (length l + k) (l ++ l') = l ++ firstn k l'.
Proof. rewrite firstn_app, firstn_all2 by lia. f_equal. f_equal. lia. Qed.
Lemma cut_refl c buf : cut c buf buf. Proof. exists 0. split; [lia|]. apply done_nil. Qed.
Lemma cut_done c buf b : Done c buf b -> cut c buf b. Proof. intros D. exists (length c). rewrite firstn_all. auto. Qed.
Lemma cut_more c c' buf b : cut c buf b -> cut (c ++ c') buf b.
Proof. intros (k & Hk & D). exists k. rewrite app_length, firstn_more by assumption. split; [lia|exact D]. Qed.
Lemma cut_after c c' buf b b' : Done c buf b -> (exists k, k <= length c' /\ Done (repeat Kept (length c) ++ firstn k c') b b') -> cut (c ++ c') buf b'.
Proof.
  intros D (k & Hk & D'). exists (length c + k). rewrite app_length, firstn_past. split; [lia|]. eapply done_after; eassumption.
Qed.
Lemma straight_bytes p : Straight p -> forallb is_byte (image p) = true.
Proof.
  assert (M : forall l, forallb is_byte (map Byte l) = true) by (induction l; [reflexivity|assumption]).
  induction p as [bs|ps IH|e| |body last IH|be n body value IH|body IH|body IH] using Prog_ind'; cbn [image Straight]; try contradiction; intros S.
  - apply M.
  - induction IH as [|p ps H _ IHl]; [reflexivity|]. cbn [map fold_right concat] in *. rewrite forallb_app, H, IHl by tauto. reflexivity.
  - reflexivity.
  - reflexivity.
  - destruct last; [|auto]. rewrite forallb_app, IH, M by assumption. reflexivity.
  - rewrite IH by assumption. rewrite forallb_app, IH, M by assumption. reflexivity.
Qed.
Lemma left_cut_both :
  (forall p buf b', Left p buf b' -> Straight p -> cut (image p) buf b') /\
  (forall ps buf off b', LeftFrom ps buf off b' -> fold_right and True (map Straight ps) ->
     exists k, k <= length (concat (map image ps)) /\ Done (repeat Kept off ++ firstn k (concat (map image ps))) buf b').
Proof.
  apply Left_mutind; cbn [image Straight]; try contradiction.
  - intros bs buf k Hl Hk _. exists k. rewrite map_length. split; [lia|]. rewrite <- firstn_map'. 
    pose proof (store_done (firstn k bs) buf) as D. rewrite firstn_length, Nat.min_l in D by lia. apply D. lia.
  - intros ps buf b' _ T S. exact (T S).
  - intros e buf _. apply cut_refl.
  - intros buf _. apply cut_refl.
  - intros body [bs|] buf b' _ T S; [apply cut_more|]; exact (T S).
  - intros body buf b1 off X _. apply cut_done, (proj2 (exec_good _ _ _ _ X)).
  - intros body bs buf b1 off X _ _. apply cut_more, cut_done, (proj2 (exec_good _ _ _ _ X)).
  - intros body buf b' _ T S. apply cut_more. exact (T S).
  - intros body buf b1 off X _ _. apply cut_more, cut_done, (proj2 (exec_good _ _ _ _ X)).
  - intros body buf b1 off b' X Ho _ T S. destruct (exec_good _ _ _ _ X) as [-> D]. cbn [map concat image fold_right Straight] in T. rewrite app_nil_r in T.
    rewrite straight_bytes by assumption. specialize (T (conj I I)).
    rewrite (done_bytes _ buf b1 (straight_bytes _ S)) in T by (exact D || (destruct D; lia)). eapply cut_after; eassumption.
  - intros p ps buf off _ _. exists 0. split; [lia|]. cbn [firstn]. rewrite app_nil_r. split; [reflexivity|]. intros i _. rewrite nth_repeat. reflexivity.
  - intros p ps buf off r E _ T [S _]. destruct (T S) as (k & Hk & D). exists k. cbn [map concat]. rewrite app_length, firstn_more by assumption.
    split; [lia|]. apply done_at; [apply end_bad_le; exact E|exact D].
  - intros p ps buf off b1 off1 b' G _ T [_ S]. destruct (gwrite_inv _ _ _ _ _ (exec_good _) G) as (_ & -> & D). destruct (T S) as (k & Hk & D').
    exists (length (image p) + k). cbn [map concat]. rewrite app_length, firstn_past. split; [lia|]. rewrite app_assoc.
    eapply done_after; [exact D|]. rewrite app_length, repeat_length. exact D'.
Qed.
Lemma left_cut p enc buf b' : image p = map Byte enc -> Straight p -> Left p buf b' -> CutOff enc buf b'.
Proof.
  intros E S L. destruct (proj1 left_cut_both _ _ _ L S) as (k & Hk & D). rewrite E, map_length in Hk. rewrite E, <- firstn_map' in D.
  exists (Nat.min k (length buf)). split; [lia|]. split; [lia|]. destruct D as [Lb D]. apply (nth_ext _ _ 0%N 0%N).
  - rewrite app_length, firstn_length, skipn_length. lia.
  - intros i Hi. specialize (D i ltac:(lia)). rewrite nth_map_byte, firstn_length, Nat.min_l, nth_firstn' in D by assumption.
    rewrite nth_app', firstn_length, nth_firstn', nth_skipn'.
    destruct (Nat.ltb_spec i k) as [Hik|Hik].
    + replace (i <? Nat.min (Nat.min k (length buf)) (length enc)) with true by (symmetry; apply Nat.ltb_lt; lia).
      replace (i <? Nat.min k (length buf)) with true by (symmetry; apply Nat.ltb_lt; lia). exact D.
    + replace (i <? Nat.min (Nat.min k (length buf)) (length enc)) with false by (symmetry; apply Nat.ltb_ge; lia).
      rewrite D. f_equal. lia.
Qed.
End Facts.
