(** Writers that keep an explicit buffer and offset: sequences with early exits and lengths
    filled in afterwards. *)
From Verif Require Import Base BaseFacts.

Section Steps.
Context {cfg : Cfg}.
Definition step := bytes -> nat -> Res serr (bytes * nat).
(** The step appends [bs] behind whatever was written before. *)
Record Steps (f : step) (bs : bytes) : Prop := {
  steps_any : forall p buf, length p <= length buf ->
    (length (p ++ bs) <= length buf /\
     f (p ++ skipn (length p) buf) (length p)
     = Ok ((p ++ bs) ++ skipn (length (p ++ bs)) buf, length (p ++ bs)))
    \/ exists e, f (p ++ skipn (length p) buf) (length p) = Err e;
  steps_ok : forall p buf, length p + length bs + slack <= length buf ->
    f (p ++ skipn (length p) buf) (length p)
    = Ok ((p ++ bs) ++ skipn (length (p ++ bs)) buf, length (p ++ bs))
}.
Lemma Steps_gwrite w bs : Writes w bs -> Steps (gwrite w) bs.
Proof. intros W. split; intros; [now apply gwrite_state|now apply gwrite_state_ok]. Qed.
Lemma Steps_ret : Steps (fun buf off => Ok (buf, off)) [].
Proof. split; intros p buf L; [left|]; rewrite ?app_nil_r; auto. Qed.
Lemma Steps_seq f g a b : Steps f a -> Steps g b ->
  Steps (fun buf off => '(buf, off) <- f buf off ;; g buf off) (a ++ b).
Proof.
  intros F G. split; intros p buf L.
  - destruct (steps_any _ _ F p buf L) as [[L1 E1]|[e E1]]; rewrite E1; cbn [rbind]; [|eauto].
    destruct (steps_any _ _ G (p ++ a) buf L1) as [[L2 E2]|[e E2]]; [left|eauto].
    rewrite app_assoc. auto.
  - rewrite app_length in L. rewrite (steps_ok _ _ F) by lia. cbn [rbind].
    rewrite (steps_ok _ _ G) by (rewrite app_length; lia). now rewrite app_assoc.
Qed.
Lemma Steps_ext f g bs : (forall buf off, g buf off = f buf off) -> Steps f bs -> Steps g bs.
Proof. intros E F. split; intros p buf L; rewrite E; [now apply (steps_any _ _ F)|now apply (steps_ok _ _ F)]. Qed.
Lemma Steps_W f bs : Steps f bs -> Writes (fun buf => f buf 0) bs.
Proof.
  intros F. split.
  - intros buf. exact (steps_any _ _ F [] buf (Nat.le_0_l _)).
  - intros buf L. exact (steps_ok _ _ F [] buf L).
Qed.
Lemma Steps_wseq ws bss : Forall2 Writes ws bss -> Steps (wseq_from ws) (concat bss).
Proof. intros F. split; intros; [now apply wseq_from_any|now apply wseq_from_ok]. Qed.

(** [k] bytes are left out, something is written, and then they are filled in with something
    that may depend on the written length. *)
Definition backpatch (k : nat) (f : step) (patch : nat -> bytes) : step := fun buf off =>
  '(buf, off') <- f buf (off + k) ;;
  '(buf, _) <- pwrite (wr_bytes (patch (off' - (off + k)))) buf off ;;
  Ok (buf, off').
Lemma skipn_firstn_split {A} (l : list A) a k : a + k <= length l ->
  skipn a l = firstn k (skipn a l) ++ skipn (a + k) l.
Proof. intros L. rewrite <- (firstn_skipn k (skipn a l)) at 1. now rewrite skipn_skipn_add. Qed.
Lemma backpatch_core p a b c buf k : length a = k -> k <> 0 -> length b = k ->
  pwrite (wr_bytes a) ((p ++ b) ++ c ++ buf) (length p) = Ok ((p ++ a) ++ c ++ buf, k).
Proof.
  intros La Nk Lb. unfold pwrite, gwrite.
  rewrite end_bad_lt by (rewrite !app_length; lia).
  rewrite <- app_assoc, skipn_app_exact, firstn_app_exact by reflexivity.
  unfold wr_bytes. destruct (Nat.ltb_spec (length (b ++ c ++ buf)) (length a)); [rewrite app_length in *; lia|].
  rewrite skipn_app_exact by lia. rewrite app_assoc. do 2 f_equal. lia.
Qed.
Lemma Steps_backpatch k f patch bs : Steps f bs -> k <> 0 -> length (patch (length bs)) = k ->
  (forall buf off, length buf < off -> exists e, f buf off = Err e) ->
  Steps (backpatch k f patch) (patch (length bs) ++ bs).
Proof.
  intros F Nk Lp Far. split; intros p buf L.
  - unfold backpatch. destruct (le_lt_dec (length p + k) (length buf)) as [K|K].
    + set (j := firstn k (skipn (length p) buf)).
      assert (Lj : length j = k) by (unfold j; rewrite firstn_length, skipn_length; lia).
      rewrite (skipn_firstn_split buf (length p) k K). fold j. rewrite (app_assoc p j).
      pose proof (steps_any _ _ F (p ++ j) buf) as E. rewrite app_length, Lj in E.
      destruct (E K) as [[L1 E1]|[e E1]]; rewrite E1; cbn [rbind]; [|eauto].
      rewrite !app_length in *. rewrite Lj in *.
      replace (length p + k + length bs - (length p + k)) with (length bs) by lia.
      rewrite <- (app_assoc (p ++ j)). rewrite (backpatch_core _ _ j _ _ k) by auto. cbn [rbind].
      left. rewrite Lp. split; [lia|]. rewrite <- !app_assoc. do 2 f_equal; [|lia]. do 4 f_equal. lia.
    + destruct (Far (p ++ skipn (length p) buf) (length p + k)) as [e E].
      { rewrite app_length, skipn_length. lia. }
      rewrite E. cbn. eauto.
  - unfold backpatch. rewrite app_length, Lp in L.
    assert (K : length p + k <= length buf) by lia.
    set (j := firstn k (skipn (length p) buf)).
    assert (Lj : length j = k) by (unfold j; rewrite firstn_length, skipn_length; lia).
    rewrite (skipn_firstn_split buf (length p) k K). fold j. rewrite (app_assoc p j).
    pose proof (steps_ok _ _ F (p ++ j) buf) as E. rewrite !app_length, Lj in E.
    rewrite E by lia. cbn [rbind].
    replace (length p + k + length bs - (length p + k)) with (length bs) by lia.
    rewrite <- (app_assoc (p ++ j)). rewrite (backpatch_core _ _ j _ _ k) by auto. cbn [rbind].
    rewrite !app_length, Lp. rewrite <- !app_assoc. do 2 f_equal; [|lia]. do 4 f_equal. lia.
Qed.
Lemma gwrite_far w buf off : length buf < off -> exists e, gwrite w buf off = Err e.
Proof. intros L. unfold gwrite. rewrite end_bad_gt by auto. eauto. Qed.
End Steps.
