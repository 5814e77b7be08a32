(** What a failing write leaves behind: programs in general. *)
From Verif Require Import Base SpecBase BaseFacts Crc Amsdu Stores SpecTorn.

Section Prog_ind.
Variable P : Prog -> Prop.
Hypothesis Hstore : forall bs, P (Store bs).
Hypothesis Hsteps : forall ps, Forall P ps -> P (Steps ps).
Hypothesis Hrefuse : forall e, P (Refuse e).
Hypothesis Hcrash : P Crash.
Hypothesis Hthen : forall body last, P body -> P (Then body last).
Hypothesis Hfill : forall be n body value, P body -> P (Fill be n body value).
Hypothesis Hrounded : forall body, P body -> P (Rounded body).
Hypothesis Hsealed : forall body, P body -> P (Sealed body).
Fixpoint Prog_ind' (p : Prog) : P p :=
  match p with
  | Store bs => Hstore bs
  | Steps ps => Hsteps ps ((fix go ps := match ps return Forall P ps with [] => Forall_nil _ | q :: ps' => Forall_cons _ (Prog_ind' q) (go ps') end) ps)
  | Refuse e => Hrefuse e
  | Crash => Hcrash
  | Then body last => Hthen body last (Prog_ind' body)
  | Fill be n body value => Hfill be n body value (Prog_ind' body)
  | Rounded body => Hrounded body (Prog_ind' body)
  | Sealed body => Hsealed body (Prog_ind' body)
  end.
End Prog_ind.

Lemma nth_over {A} (l : list A) i d : length l <= i -> nth i l d = d. Proof. apply nth_overflow. Qed.
Lemma nth_repeat_app {A} n (d : A) l i : nth i (repeat d n ++ l) d = if i <? n then d else nth (i - n) l d.
Proof.
  destruct (Nat.ltb_spec i n).
  - rewrite app_nth1 by (rewrite repeat_length; assumption). apply nth_repeat.
  - rewrite app_nth2 by (rewrite repeat_length; assumption). rewrite repeat_length. reflexivity.
Qed.
Lemma nth_app' {A} (l l' : list A) i d : nth i (l ++ l') d = if i <? length l then nth i l d else nth (i - length l) l' d.
Proof. destruct (Nat.ltb_spec i (length l)); [apply app_nth1|apply app_nth2]; assumption. Qed.
Lemma nth_map_byte l i : nth i (map Byte l) Kept = if i <? length l then Byte (nth i l 0%N) else Kept.
Proof.
  destruct (Nat.ltb_spec i (length l)).
  - rewrite (nth_indep _ Kept (Byte 0%N)) by (rewrite map_length; assumption). apply map_nth.
  - apply nth_over. rewrite map_length. assumption.
Qed.
Lemma nth_firstn' {A} n (l : list A) i d : nth i (firstn n l) d = if i <? n then nth i l d else d.
Proof.
  revert l i; induction n as [|n IH]; intros l i; [destruct i, l; reflexivity|].
  destruct l as [|x l]; [cbn [firstn]; destruct i; [reflexivity|]; cbn [nth]; destruct (S i <? S n); reflexivity|].
  destruct i; [reflexivity|]. cbn [firstn nth]. rewrite IH. reflexivity.
Qed.
Lemma nth_skipn' {A} n (l : list A) i d : nth i (skipn n l) d = nth (n + i) l d.
Proof. revert l; induction n as [|n IH]; intros l; [reflexivity|]. destruct l; [destruct i; reflexivity|]. cbn [skipn Nat.add nth]. apply IH. Qed.

Lemma nth_check k : k < 4 -> nth k (repeat Check 4) Kept = Check.
Proof. intros H. do 4 (destruct k as [|k]; [reflexivity|]). lia. Qed.

Section Facts.
Context {cfg : Cfg}.
Lemma end_bad_le off len : end_bad off len = false -> off <= len.
Proof. unfold end_bad. destruct strict_end; intros E; [apply Nat.leb_gt in E; lia|apply Nat.ltb_ge in E; exact E]. Qed.
Lemma field_length be n v : length (field_bytes be n v) = n.
Proof. destruct be; [apply be_bytes_length|apply le_bytes_length]. Qed.

(** ** Combining *)
Lemma done_torn c buf b : Done c buf b -> Torn c buf b.
Proof. intros [L D]. split; [exact L|]. intros i Hi. specialize (D i Hi). destruct (nth i c Kept); auto. Qed.
Lemma torn_refl c buf : Torn c buf buf.
Proof. split; [reflexivity|]. intros i Hi. destruct (nth i c Kept); auto. Qed.
Lemma done_nil buf : Done [] buf buf.
Proof. split; [reflexivity|]. intros i _. destruct i; reflexivity. Qed.
Lemma torn_more c c' buf b : Torn c buf b -> Torn (c ++ c') buf b.
Proof.
  intros [L D]. split; [exact L|]. intros i Hi. specialize (D i Hi). rewrite nth_app'. destruct (Nat.ltb_spec i (length c)); [exact D|].
  rewrite nth_over in D by assumption. destruct (nth _ c' Kept); auto.
Qed.
Lemma torn_at off c buf r : off <= length buf -> Torn c (skipn off buf) r -> Torn (repeat Kept off ++ c) buf (firstn off buf ++ r).
Proof.
  intros Ho [L D]. rewrite skipn_length in *. split; [rewrite app_length, firstn_length; lia|].
  intros i Hi. rewrite nth_repeat_app, nth_app', firstn_length, Nat.min_l, nth_firstn' by assumption.
  destruct (Nat.ltb_spec i off); [reflexivity|].
  specialize (D (i - off)). rewrite nth_skipn' in D. replace (off + (i - off)) with i in D by lia. apply D. lia.
Qed.
Lemma done_at off c buf r : off <= length buf -> Done c (skipn off buf) r -> Done (repeat Kept off ++ c) buf (firstn off buf ++ r).
Proof.
  intros Ho [L D]. rewrite skipn_length in *. split; [rewrite app_length, firstn_length; lia|].
  intros i Hi. rewrite nth_repeat_app, nth_app', firstn_length, Nat.min_l, nth_firstn' by assumption.
  destruct (Nat.ltb_spec i off); [reflexivity|].
  specialize (D (i - off)). rewrite nth_skipn' in D. replace (off + (i - off)) with i in D by lia. apply D. lia.
Qed.
Lemma torn_after c c' buf b b' : Done c buf b -> Torn (repeat Kept (length c) ++ c') b b' -> Torn (c ++ c') buf b'.
Proof.
  intros [L D] [L' D']. split; [congruence|]. intros i Hi. specialize (D i Hi). specialize (D' i ltac:(lia)).
  rewrite nth_repeat_app in D'. rewrite nth_app'. destruct (Nat.ltb_spec i (length c)).
  - rewrite D'. destruct (nth i c Kept); auto.
  - rewrite nth_over in D by assumption. rewrite D in D'. exact D'.
Qed.
Lemma done_after c c' buf b b' : Done c buf b -> Done (repeat Kept (length c) ++ c') b b' -> Done (c ++ c') buf b'.
Proof.
  intros [L D] [L' D']. split; [congruence|]. intros i Hi. specialize (D i Hi). specialize (D' i ltac:(lia)).
  rewrite nth_repeat_app in D'. rewrite nth_app'. destruct (Nat.ltb_spec i (length c)).
  - rewrite D'. exact D.
  - rewrite nth_over in D by assumption. rewrite D in D'. exact D'.
Qed.
(** a field in front of what has been written *)
Lemma torn_front f c buf b b' : Done (repeat Kept (length f) ++ c) buf b -> Torn (map Byte f) b b' -> Torn (map Byte f ++ c) buf b'.
Proof.
  intros [L D] [L' D']. split; [congruence|]. intros i Hi. specialize (D i Hi). specialize (D' i ltac:(lia)).
  rewrite nth_repeat_app in D. rewrite nth_map_byte in D'. rewrite nth_app', map_length, nth_map_byte. destruct (i <? length f).
  - rewrite D in D'. exact D'.
  - rewrite D'. destruct (nth _ c Kept); auto.
Qed.
Lemma done_front f c buf b b' : Done (repeat Kept (length f) ++ c) buf b -> Done (map Byte f) b b' -> Done (map Byte f ++ c) buf b'.
Proof.
  intros [L D] [L' D']. split; [congruence|]. intros i Hi. specialize (D i Hi). specialize (D' i ltac:(lia)).
  rewrite nth_repeat_app in D. rewrite nth_map_byte in D'. rewrite nth_app', map_length, nth_map_byte. destruct (i <? length f).
  - exact D'.
  - rewrite D'. exact D.
Qed.
Lemma torn_front_kept f c buf b : Torn (repeat Kept (length f) ++ c) buf b -> Torn (map Byte f ++ c) buf b.
Proof.
  intros [L D]. split; [exact L|]. intros i Hi. specialize (D i Hi). rewrite nth_repeat_app in D. rewrite nth_app', map_length, nth_map_byte.
  destruct (i <? length f); [left; exact D|exact D].
Qed.

Lemma store_done bs buf : length bs <= length buf -> Done (map Byte bs) buf (bs ++ skipn (length bs) buf).
Proof.
  intros H. split; [rewrite app_length, skipn_length; lia|]. intros i Hi. rewrite nth_map_byte, nth_app', nth_skipn'.
  destruct (Nat.ltb_spec i (length bs)); [reflexivity|]. f_equal. lia.
Qed.
Lemma store_torn bs buf k : k <= length bs -> k <= length buf -> Torn (map Byte bs) buf (firstn k bs ++ skipn k buf).
Proof.
  intros Hb H. split; [rewrite app_length, skipn_length, firstn_length; lia|]. intros i Hi.
  rewrite nth_map_byte, nth_app', firstn_length, Nat.min_l, nth_firstn', nth_skipn' by assumption.
  destruct (Nat.ltb_spec i k).
  - destruct (Nat.ltb_spec i (length bs)); [right; reflexivity|lia].
  - replace (k + (i - k)) with i by lia. destruct (i <? length bs); [left|]; reflexivity.
Qed.

(** ** A successful run does what the image says *)
Definition good (p : Prog) : Prop := forall buf b' n, exec p buf = Ok (b', n) -> n = length (image p) /\ Done (image p) buf b'.
Lemma gwrite_inv p buf off b' n : good p -> gwrite (exec p) buf off = Ok (b', n) ->
  off <= length buf /\ n = off + length (image p) /\ Done (repeat Kept off ++ image p) buf b'.
Proof.
  unfold gwrite. intros G. destruct (end_bad _ _) eqn:E; [discriminate|]. apply end_bad_le in E.
  destruct (exec p (skipn off buf)) as [[b m]| |] eqn:X; try discriminate. intros [= <- <-]. destruct (G _ _ _ X) as [-> D].
  split; [exact E|]. split; [reflexivity|]. apply done_at; assumption.
Qed.
Lemma steps_good ps : Forall good ps -> forall buf off b' n, wseq_from (map exec ps) buf off = Ok (b', n) ->
  n = off + length (concat (map image ps)) /\ Done (repeat Kept off ++ concat (map image ps)) buf b'.
Proof.
  induction 1 as [|p ps G _ IH]; intros buf off b' n; cbn [map wseq_from concat].
  - intros [= <- <-]. split; [cbn; lia|]. rewrite app_nil_r. split; [reflexivity|]. intros i _.
    rewrite nth_repeat. reflexivity.
  - destruct (gwrite (exec p) buf off) as [[b1 off1]| |] eqn:W; cbn [rbind]; try discriminate.
    destruct (gwrite_inv _ _ _ _ _ G W) as (_ & -> & D). intros R. destruct (IH _ _ _ _ R) as [-> D'].
    split; [rewrite app_length; lia|]. rewrite app_assoc. eapply done_after; [exact D|].
    rewrite app_length, repeat_length. exact D'.
Qed.
Lemma slice_from_inv (l : bytes) off r : @slice_from serr l off = Ok r -> off <= length l /\ r = skipn off l.
Proof. unfold slice_from. destruct (off <=? length l) eqn:E; [|discriminate]. apply Nat.leb_le in E. intros [= <-]. auto. Qed.
Lemma slice_to_inv (l : bytes) off r : @slice_to serr l off = Ok r -> off <= length l /\ r = firstn off l.
Proof. unfold slice_to. destruct (off <=? length l) eqn:E; [|discriminate]. apply Nat.leb_le in E. intros [= <-]. auto. Qed.
Lemma store_good bs : good (Store bs).
Proof.
  intros buf b' n. cbn [exec image]. unfold wr_bytes. destruct (Nat.ltb_spec (length buf) (length bs)); [discriminate|]. intros [= <- <-].
  rewrite map_length. split; [reflexivity|]. apply store_done. assumption.
Qed.
(** the bytes covered by a checksum *)
Lemma done_bytes c buf b : forallb is_byte c = true -> length c <= length buf -> Done c buf b -> firstn (length c) b = map cell_byte c.
Proof.
  intros A Hl [L D]. apply (nth_ext _ _ 0%N 0%N).
  - rewrite firstn_length, map_length. lia.
  - intros i Hi. rewrite firstn_length in Hi. rewrite nth_firstn'. replace (i <? length c) with true by (symmetry; apply Nat.ltb_lt; lia).
    specialize (D i ltac:(lia)). change 0%N with (cell_byte Kept) at 2. rewrite map_nth.
    rewrite forallb_forall in A. assert (Ii : In (nth i c Kept) c) by (apply nth_In; lia). specialize (A _ Ii). destruct (nth i c Kept); [exact D|discriminate|discriminate].
Qed.
Lemma attach_inv b off b' n : attach_fcs b off = Ok (b', n) ->
  off <= length b /\ gwrite (exec (Store (le_bytes 4 (crc32 (firstn off b))))) b off = Ok (b', n).
Proof. unfold attach_fcs. destruct (slice_to b off) as [s| |] eqn:S; cbn [rbind]; try discriminate. apply slice_to_inv in S. destruct S as [S ->]. auto. Qed.

Lemma exec_good p : good p.
Proof.
  induction p as [bs|ps IH|e| |body last IH|be n body value IH|body IH|body IH] using Prog_ind'; intros buf b' m.
  - apply store_good.
  - cbn [exec image]. intros W. destruct (steps_good ps IH _ _ _ _ W) as [E D]. split; [exact E|exact D].
  - discriminate.
  - discriminate.
  - cbn [exec image]. destruct (exec body buf) as [[b1 off]| |] eqn:X; cbn [rbind]; try discriminate. destruct (IH _ _ _ X) as [-> D].
    destruct last as [bs|]; [|discriminate]. destruct (slice_from b1 _) as [rest| |] eqn:S; cbn [rbind]; try discriminate.
    apply slice_from_inv in S. destruct S as [S ->]. destruct (slice_to _ _) as [r| |] eqn:T; cbn [rbind]; try discriminate.
    apply slice_to_inv in T. destruct T as [T _]. intros [= <- <-]. rewrite app_length, map_length. split; [reflexivity|].
    eapply done_after; [exact D|]. apply done_at; [exact S|]. apply store_done. exact T.
  - cbn [exec image]. destruct (gwrite (exec body) buf n) as [[b1 off]| |] eqn:X; cbn [rbind]; try discriminate.
    destruct (gwrite_inv _ _ _ _ _ IH X) as (Hn & -> & D). replace (n + length (image body) - n) with (length (image body)) by lia.
    unfold pwrite. set (f := field_bytes be n (value (length (image body)))).
    destruct (gwrite (wr_bytes f) b1 0) as [[b2 k]| |] eqn:Y; cbn [rbind]; try discriminate. intros [= <- <-].
    destruct (gwrite_inv (Store f) _ _ _ _ (store_good f) Y) as (_ & _ & D'). cbn [repeat app image] in D'.
    assert (Lf : length f = n) by apply field_length.
    rewrite app_length, map_length, Lf. split; [reflexivity|]. eapply done_front; [|exact D']. rewrite Lf. exact D.
  - cbn [exec image]. destruct (exec body buf) as [[b1 off]| |] eqn:X; cbn [rbind]; try discriminate. destruct (IH _ _ _ X) as [-> D].
    intros [= <- <-]. rewrite app_length, repeat_length. split; [unfold round4; pose proof (Nat.div_mod (length (image body) + 3) 4 ltac:(lia)); pose proof (Nat.mod_upper_bound (length (image body) + 3) 4 ltac:(lia)); lia|].
    destruct D as [L D]. split; [exact L|]. intros i Hi. specialize (D i Hi). rewrite nth_app'. destruct (Nat.ltb_spec i (length (image body))); [exact D|].
    rewrite nth_over in D by assumption. rewrite nth_repeat. exact D.
  - cbn [exec image]. destruct (exec body buf) as [[b1 off]| |] eqn:X; cbn [rbind]; try discriminate. destruct (IH _ _ _ X) as [-> D].
    intros A. destruct (attach_inv _ _ _ _ A) as [Ho G]. destruct (gwrite_inv _ _ _ _ _ (store_good _) G) as (_ & -> & D').
    cbn [image] in *. destruct (forallb is_byte (image body)) eqn:B.
    + rewrite (done_bytes _ buf b1 B) in D' by (exact D || (destruct D; lia)). rewrite app_length, !map_length, !le_bytes_length.
      split; [reflexivity|]. eapply done_after; eassumption.
    + rewrite app_length, map_length, le_bytes_length, repeat_length. split; [reflexivity|]. destruct D as [L D], D' as [L' D'].
      split; [congruence|]. intros i Hi. specialize (D i Hi). specialize (D' i ltac:(lia)). rewrite nth_repeat_app, nth_map_byte, le_bytes_length in D'.
      rewrite nth_app'. destruct (Nat.ltb_spec i (length (image body))); [rewrite D'; exact D|].
      rewrite nth_over in D by assumption. destruct (Nat.ltb_spec (i - length (image body)) 4) as [H4|H4].
      * rewrite nth_check by exact H4. exact I.
      * rewrite (nth_over (repeat Check 4)) by (rewrite repeat_length; lia). congruence.
Qed.

(** ** What a failing run leaves *)
Scheme Left_mut := Minimality for Left Sort Prop
with LeftFrom_mut := Minimality for LeftFrom Sort Prop.
Combined Scheme Left_mutind from Left_mut, LeftFrom_mut.
Lemma left_torn_both :
  (forall p buf b', Left p buf b' -> Torn (image p) buf b') /\
  (forall ps buf off b', LeftFrom ps buf off b' -> Torn (repeat Kept off ++ concat (map image ps)) buf b').
Proof.
  apply Left_mutind; cbn [image].
  - intros bs buf k Hl Hk. apply store_torn; lia.
  - intros ps buf b' _ T. exact T.
  - intros e buf. apply torn_refl.
  - intros buf. apply torn_refl.
  - intros body [bs|] buf b' _ T; [apply torn_more|]; exact T.
  - intros body buf b1 off X. apply done_torn, (proj2 (exec_good _ _ _ _ X)).
  - intros body bs buf b1 off X _. apply torn_more, done_torn, (proj2 (exec_good _ _ _ _ X)).
  - intros be n body value buf b' _ T. cbn [map concat] in T. rewrite app_nil_r in T. apply torn_front_kept. rewrite field_length. exact T.
  - intros be n body value buf b1 off b' G _ T. destruct (gwrite_inv _ _ _ _ _ (exec_good _) G) as (_ & -> & D).
    replace (n + length (image body) - n) with (length (image body)) in T by lia. cbn [map concat repeat app image] in T. rewrite app_nil_r in T.
    eapply torn_front; [|exact T]. rewrite field_length. exact D.
  - intros body buf b' _ T. apply torn_more. exact T.
  - intros body buf b' _ T. apply torn_more. exact T.
  - intros body buf b1 off X _. apply torn_more, done_torn, (proj2 (exec_good _ _ _ _ X)).
  - intros body buf b1 off b' X Ho _ T. destruct (exec_good _ _ _ _ X) as [-> D]. cbn [map concat image] in T. rewrite app_nil_r in T.
    destruct (forallb is_byte (image body)) eqn:B.
    + rewrite (done_bytes _ buf b1 B) in T by (exact D || (destruct D; lia)). eapply torn_after; eassumption.
    + destruct D as [L D], T as [L' T]. split; [congruence|]. intros i Hi. specialize (D i Hi). specialize (T i ltac:(lia)).
      rewrite nth_repeat_app, nth_map_byte, le_bytes_length in T.
      rewrite nth_app'. destruct (Nat.ltb_spec i (length (image body))); [rewrite T; destruct (nth i (image body) Kept); auto|].
      rewrite nth_over in D by assumption. destruct (Nat.ltb_spec (i - length (image body)) 4) as [H4|H4].
      * rewrite nth_check by exact H4. exact I.
      * rewrite (nth_over (repeat Check 4)) by (rewrite repeat_length; lia). congruence.
  - intros p ps buf off _. apply torn_refl.
  - intros p ps buf off r E _ T. cbn [map concat]. rewrite app_assoc. apply torn_more. apply torn_at; [apply end_bad_le; exact E|exact T].
  - intros p ps buf off b1 off1 b' G _ T. destruct (gwrite_inv _ _ _ _ _ (exec_good _) G) as (_ & -> & D). cbn [map concat]. rewrite app_assoc.
    eapply torn_after; [exact D|]. rewrite app_length, repeat_length. exact T.
Qed.
Lemma left_torn p buf b' : Left p buf b' -> Torn (image p) buf b'. Proof. apply left_torn_both. Qed.

(** ** Something is left exactly if the run fails *)
Lemma from_fails ps : Forall (fun p => forall buf, (exists b', Left p buf b') <-> (forall r, exec p buf <> Ok r)) ps ->
  forall buf off, (exists b', LeftFrom ps buf off b') <-> (forall r, wseq_from (map exec ps) buf off <> Ok r).
Proof.
  induction 1 as [|p ps G _ IH]; intros buf off; cbn [map wseq_from].
  - split; [intros [b' L]; inversion L|intros H; exfalso; eapply H; reflexivity].
  - unfold gwrite at 1. destruct (end_bad off (length buf)) eqn:E; cbn [rbind].
    + split; [discriminate|]. intros _. eexists. apply LF_end. exact E.
    + specialize (G (skipn off buf)). destruct (exec p (skipn off buf)) as [[b n]|e|] eqn:X; cbn [rbind].
      * rewrite <- IH. assert (W : gwrite (exec p) buf off = Ok (firstn off buf ++ b, off + n)) by (unfold gwrite; rewrite E, X; reflexivity).
        split; intros [b' L].
        -- inversion L as [? ? ? ? E'|? ? ? ? r E' L'|? ? ? ? b1 off1 ? W' L']; subst; [congruence|..].
           ++ exfalso. eapply (proj1 G); [eexists; exact L'|reflexivity].
           ++ rewrite W in W'. injection W' as <- <-. eexists. exact L'.
        -- eexists. eapply LF_later; eassumption.
      * destruct G as [_ G]. destruct G as [b' L]; [discriminate|]. split; [discriminate|]. intros _. eexists. eapply LF_here; eassumption.
      * destruct G as [_ G]. destruct G as [b' L]; [discriminate|]. split; [discriminate|]. intros _. eexists. eapply LF_here; eassumption.
Qed.
Lemma store_fails bs buf : (exists b', Left (Store bs) buf b') <-> (forall r, exec (Store bs) buf <> Ok r).
Proof.
  cbn [exec]. unfold wr_bytes. destruct (Nat.ltb_spec (length buf) (length bs)).
  - split; [discriminate|]. intros _. exists buf. change buf with (firstn 0 bs ++ skipn 0 buf) at 2. constructor; lia.
  - split; [intros [b' L]; inversion L; lia|intros H1; exfalso; eapply H1; reflexivity].
Qed.
Lemma left_fails p : forall buf, (exists b', Left p buf b') <-> (forall r, exec p buf <> Ok r).
Proof.
  induction p as [bs|ps IH|e| |body last IH|be n body value IH|body IH|body IH] using Prog_ind'; intros buf.
  - apply store_fails.
  - cbn [exec]. unfold wseq. rewrite <- (from_fails ps IH). split; intros [b' L]; [inversion L; subst|]; eexists; [|constructor]; eassumption.
  - split; [discriminate|]. intros _. eexists. constructor.
  - split; [discriminate|]. intros _. eexists. constructor.
  - cbn [exec]. specialize (IH buf). destruct (exec body buf) as [[b1 off]|e|] eqn:X; cbn [rbind].
    + assert (NL : forall b', ~ Left body buf b') by (intros b' L; eapply (proj1 IH); [eexists; exact L|reflexivity]).
      destruct last as [bs|].
      * unfold slice_from, slice_to. destruct (Nat.leb_spec off (length b1)); cbn [rbind].
        -- rewrite skipn_length. destruct (Nat.leb_spec (length bs) (length b1 - off)); cbn [rbind].
           ++ split; [|intros H2; exfalso; eapply H2; reflexivity]. intros [b' L]. inversion L; subst; [exfalso; eapply NL; eassumption|].
              assert (b1 = b' /\ off = off0) as [-> ->] by (split; congruence). lia.
           ++ split; [discriminate|]. intros _. eexists. eapply LThen_short; [exact X|lia].
        -- split; [discriminate|]. intros _. eexists. eapply LThen_short; [exact X|lia].
      * split; [discriminate|]. intros _. eexists. eapply LThen_panic. exact X.
    + destruct IH as [_ IH]. destruct IH as [b' L]; [discriminate|]. split; [discriminate|]. intros _. eexists. apply LThen. exact L.
    + destruct IH as [_ IH]. destruct IH as [b' L]; [discriminate|]. split; [discriminate|]. intros _. eexists. apply LThen. exact L.
  - cbn [exec]. pose proof (from_fails [body] (Forall_cons _ IH (Forall_nil _)) buf n) as F. cbn [map wseq_from] in F.
    destruct (gwrite (exec body) buf n) as [[b1 off]|e|] eqn:X; cbn [rbind] in *.
    + set (f := field_bytes be n (value (off - n))). pose proof (from_fails [Store f] (Forall_cons _ (store_fails f) (Forall_nil _)) b1 0) as G.
      cbn [map wseq_from] in G. unfold pwrite. cbn [exec] in G.
      assert (NL : forall b', ~ LeftFrom [body] buf n b') by (intros b' L; eapply (proj1 F); [eexists; exact L|reflexivity]).
      destruct (gwrite (wr_bytes f) b1 0) as [[b2 k]|e|] eqn:Y; cbn [rbind] in *.
      * split; [|intros H2; exfalso; eapply H2; reflexivity]. intros [b' L]. inversion L; subst; [exfalso; eapply NL; eassumption|].
        assert (b1 = b0 /\ off = off0) as [-> ->] by (split; congruence). exfalso. eapply (proj1 G); [eexists; eassumption|reflexivity].
      * split; [discriminate|]. intros _. destruct (proj2 G) as [b' L]; [discriminate|]. eexists. eapply LFill_field; eassumption.
      * split; [discriminate|]. intros _. destruct (proj2 G) as [b' L]; [discriminate|]. eexists. eapply LFill_field; eassumption.
    + split; [discriminate|]. intros _. destruct (proj2 F) as [b' L]; [discriminate|]. eexists. apply LFill. exact L.
    + split; [discriminate|]. intros _. destruct (proj2 F) as [b' L]; [discriminate|]. eexists. apply LFill. exact L.
  - cbn [exec]. specialize (IH buf). destruct (exec body buf) as [[b1 off]|e|] eqn:X; cbn [rbind].
    + split; [|intros H2; exfalso; eapply H2; reflexivity]. intros [b' L]. inversion L; subst. exfalso. eapply (proj1 IH); [eexists; eassumption|reflexivity].
    + destruct IH as [_ IH]. destruct IH as [b' L]; [discriminate|]. split; [discriminate|]. intros _. eexists. apply LRounded. exact L.
    + destruct IH as [_ IH]. destruct IH as [b' L]; [discriminate|]. split; [discriminate|]. intros _. eexists. apply LRounded. exact L.
  - cbn [exec]. specialize (IH buf). destruct (exec body buf) as [[b1 off]|e|] eqn:X; cbn [rbind].
    + assert (NL : forall b', ~ Left body buf b') by (intros b' L; eapply (proj1 IH); [eexists; exact L|reflexivity]).
      unfold attach_fcs, slice_to. destruct (Nat.leb_spec off (length b1)) as [Ho|Ho]; cbn [rbind].
      * set (f := le_bytes 4 (crc32 (firstn off b1))). pose proof (from_fails [Store f] (Forall_cons _ (store_fails f) (Forall_nil _)) b1 off) as G.
        cbn [map wseq_from exec] in G. unfold wr_le. fold f.
        assert (N2 : (forall r, gwrite (wr_bytes f) b1 off <> Ok r) <-> (exists b', LeftFrom [Store f] b1 off b')).
        { rewrite G. destruct (gwrite (wr_bytes f) b1 off) as [[b2 k]|e|]; cbn [rbind]; split; congruence. }
        rewrite N2. split; intros [b' L].
        -- inversion L; subst; [exfalso; eapply NL; eassumption|..]; assert (off = off0) as <- by congruence.
           ++ assert (b1 = b') as <- by congruence. lia.
           ++ assert (b1 = b0) as <- by congruence. eexists. eassumption.
        -- eexists. eapply LSealed_fcs; eassumption.
      * split; [discriminate|]. intros _. eexists. eapply LSealed_far; eassumption.
    + destruct IH as [_ IH]. destruct IH as [b' L]; [discriminate|]. split; [discriminate|]. intros _. eexists. apply LSealed. exact L.
    + destruct IH as [_ IH]. destruct IH as [b' L]; [discriminate|]. split; [discriminate|]. intros _. eexists. apply LSealed. exact L.
Qed.
End Facts.
