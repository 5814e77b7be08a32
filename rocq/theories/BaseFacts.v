(** Proofs about the base layer. *)
From Verif Require Import Base.
From Verif Require Export SpecBase.
Ltac Zify.zify_post_hook ::= Z.div_mod_to_equations.

Lemma wf_bytes_app a b : wf_bytes (a ++ b) <-> wf_bytes a /\ wf_bytes b.
Proof. unfold wf_bytes. apply Forall_app. Qed.
Lemma wf_bytes_cons a b : wf_bytes (a :: b) <-> (a < 256)%N /\ wf_bytes b.
Proof. unfold wf_bytes. split; intros H; [inversion H; auto | constructor; tauto]. Qed.
Lemma wf_bytes_nil : wf_bytes [].
Proof. constructor. Qed.
Lemma wf_bytesb_spec bs : wf_bytesb bs = true <-> wf_bytes bs.
Proof.
  unfold wf_bytesb, wf_bytes. rewrite forallb_forall, Forall_forall.
  split; intros H x Hx; specialize (H x Hx); lia.
Qed.
Lemma wf_firstn n bs : wf_bytes bs -> wf_bytes (firstn n bs).
Proof.
  intros H. rewrite <- (firstn_skipn n bs) in H. apply wf_bytes_app in H. tauto.
Qed.
Lemma wf_skipn n bs : wf_bytes bs -> wf_bytes (skipn n bs).
Proof.
  intros H. rewrite <- (firstn_skipn n bs) in H. apply wf_bytes_app in H. tauto.
Qed.
Lemma wf_rev bs : wf_bytes bs -> wf_bytes (rev bs).
Proof. unfold wf_bytes. intros H. apply Forall_rev. exact H. Qed.

Lemma le_bytes_length n v : length (le_bytes n v) = n.
Proof. revert v; induction n as [|n IH]; intros v; cbn [le_bytes length]; [reflexivity|]. now rewrite IH. Qed.
Lemma be_bytes_length n v : length (be_bytes n v) = n.
Proof. unfold be_bytes. now rewrite rev_length, le_bytes_length. Qed.
Lemma le_bytes_wf n v : wf_bytes (le_bytes n v).
Proof.
  revert v; induction n as [|n IH]; intros v; cbn [le_bytes]; [constructor|].
  apply wf_bytes_cons. split; [lia|apply IH].
Qed.
Lemma be_bytes_wf n v : wf_bytes (be_bytes n v).
Proof. apply wf_rev, le_bytes_wf. Qed.

Lemma pow256_succ n : (256 ^ N.of_nat (S n) = 256 * 256 ^ N.of_nat n)%N.
Proof. rewrite Nnat.Nat2N.inj_succ, N.pow_succ_r'. reflexivity. Qed.

Lemma le_val_bytes n v : le_val (le_bytes n v) = (v mod 256 ^ N.of_nat n)%N.
Proof.
  revert v; induction n as [|n IH]; intros v; cbn [le_bytes le_val].
  - cbn. now rewrite N.mod_1_r.
  - rewrite IH, pow256_succ. rewrite (N.mod_mul_r v 256 (256 ^ N.of_nat n)); [reflexivity|lia|].
    apply N.pow_nonzero. lia.
Qed.
Lemma le_val_bytes_small n v : (v < 256 ^ N.of_nat n)%N -> le_val (le_bytes n v) = v.
Proof. intros H. rewrite le_val_bytes. apply N.mod_small, H. Qed.
Lemma le_val_bound bs : wf_bytes bs -> (le_val bs < 256 ^ N.of_nat (length bs))%N.
Proof.
  induction bs as [|b bs IH]; intros H; cbn [le_val length].
  - cbn. lia.
  - apply wf_bytes_cons in H as [Hb H]. specialize (IH H). rewrite pow256_succ. nia.
Qed.
Lemma le_bytes_val bs : wf_bytes bs -> le_bytes (length bs) (le_val bs) = bs.
Proof.
  induction bs as [|b bs IH]; intros H; cbn [le_val length le_bytes]; [reflexivity|].
  apply wf_bytes_cons in H as [Hb H]. f_equal.
  - rewrite N.mul_comm, N.mod_add by lia. apply N.mod_small, Hb.
  - rewrite N.mul_comm, N.div_add by lia. rewrite N.div_small by lia.
    rewrite N.add_0_l. apply IH, H.
Qed.
Lemma be_val_bytes n v : be_val (be_bytes n v) = (v mod 256 ^ N.of_nat n)%N.
Proof. unfold be_val, be_bytes. rewrite rev_involutive. apply le_val_bytes. Qed.
Lemma be_val_bytes_small n v : (v < 256 ^ N.of_nat n)%N -> be_val (be_bytes n v) = v.
Proof. intros H. rewrite be_val_bytes. apply N.mod_small, H. Qed.
Lemma be_bytes_val bs : wf_bytes bs -> be_bytes (length bs) (be_val bs) = bs.
Proof.
  intros H. unfold be_bytes, be_val. rewrite <- (rev_length bs).
  rewrite le_bytes_val by now apply wf_rev. apply rev_involutive.
Qed.
Lemma be_val_bound bs : wf_bytes bs -> (be_val bs < 256 ^ N.of_nat (length bs))%N.
Proof. intros H. unfold be_val. rewrite <- (rev_length bs). apply le_val_bound, wf_rev, H. Qed.
Lemma le_bytes_inj n u v : (u < 256 ^ N.of_nat n)%N -> (v < 256 ^ N.of_nat n)%N ->
  le_bytes n u = le_bytes n v -> u = v.
Proof. intros Hu Hv H. rewrite <- (le_val_bytes_small n u), H by assumption. now apply le_val_bytes_small. Qed.

Lemma firstn_app_exact {A} (a b : list A) n : n = length a -> firstn n (a ++ b) = a.
Proof. intros ->. rewrite firstn_app, Nat.sub_diag, firstn_all, firstn_O. apply app_nil_r. Qed.
Lemma skipn_app_exact {A} (a b : list A) n : n = length a -> skipn n (a ++ b) = b.
Proof. intros ->. rewrite skipn_app, Nat.sub_diag, skipn_all. reflexivity. Qed.
Lemma skipn_skipn_add {A} (l : list A) a b : skipn a (skipn b l) = skipn (b + a) l.
Proof.
  revert l; induction b as [|b IH]; intros l; cbn [skipn Nat.add]; [reflexivity|].
  destruct l as [|x l]; [now rewrite skipn_nil|apply IH].
Qed.

(** ** Slices *)
Lemma slice_from_ok {E} bs a : a <= length bs -> @slice_from E bs a = Ok (skipn a bs).
Proof. unfold slice_from. intros H. destruct (Nat.leb_spec a (length bs)); [reflexivity|lia]. Qed.
Lemma slice_to_ok {E} bs a : a <= length bs -> @slice_to E bs a = Ok (firstn a bs).
Proof. unfold slice_to. intros H. destruct (Nat.leb_spec a (length bs)); [reflexivity|lia]. Qed.

Section Facts.
Context {cfg : Cfg}.

Lemma end_bad_false off len : off + slack <= len -> end_bad off len = false.
Proof. unfold end_bad, slack. destruct strict_end; intros H; [apply Nat.leb_gt | apply Nat.ltb_ge]; lia. Qed.
Lemma end_bad_lt off len : off < len -> end_bad off len = false.
Proof. unfold end_bad. destruct strict_end; intros H; [apply Nat.leb_gt | apply Nat.ltb_ge]; lia. Qed.
Lemma end_bad_gt off len : len < off -> end_bad off len = true.
Proof. unfold end_bad. destruct strict_end; intros H; [apply Nat.leb_le | apply Nat.ltb_lt]; lia. Qed.
Lemma end_bad_le off len : end_bad off len = false -> off <= len.
Proof. unfold end_bad. destruct strict_end; intros H; [apply Nat.leb_gt in H | apply Nat.ltb_ge in H]; lia. Qed.
Lemma slack_le : slack <= 1.
Proof. unfold slack. destruct strict_end; lia. Qed.
Lemma end_ok_slack bs : end_ok bs <-> slack <= length bs.
Proof.
  unfold end_ok, slack. destruct strict_end; split; intros H; try lia; auto.
  - destruct H as [H|H]; [discriminate|]. destruct bs; [congruence|cbn; lia].
  - right. intros ->. cbn in H. lia.
Qed.

(** ** Writers *)
Lemma WritesT_Writes w bs : WritesT w bs -> Writes w bs.
Proof. intros [H _]. exact H. Qed.
Lemma Writes_lenient w bs : strict_end = false -> Writes w bs -> WritesT w bs.
Proof.
  intros E H. split; [exact H|]. intros buf Hb. apply (writes_ok _ _ H). unfold slack. rewrite E. lia.
Qed.
Lemma Writes_small w bs buf : Writes w bs -> length buf < length bs -> exists e, w buf = Err e.
Proof. intros H L. destruct (writes_any _ _ H buf) as [[? _]|E]; [lia|exact E]. Qed.
Lemma Writes_no_panic w bs buf : Writes w bs -> w buf <> Panic.
Proof. intros H. destruct (writes_any _ _ H buf) as [[_ E]|[e E]]; rewrite E; discriminate. Qed.

Lemma wr_bytes_T bs : WritesT (wr_bytes bs) bs.
Proof.
  assert (T : forall buf, length bs <= length buf ->
    wr_bytes bs buf = Ok (bs ++ skipn (length bs) buf, length bs)).
  { intros buf H. unfold wr_bytes. destruct (Nat.ltb_spec (length buf) (length bs)); [lia|reflexivity]. }
  split; [split|exact T].
  - intros buf. destruct (le_lt_dec (length bs) (length buf)) as [L|L].
    + left. split; [exact L|now apply T].
    + right. exists TooBig. unfold wr_bytes. destruct (Nat.ltb_spec (length buf) (length bs)); [reflexivity|lia].
  - intros buf H. apply T. lia.
Qed.
Lemma wr_bytes_W bs : Writes (wr_bytes bs) bs.
Proof. apply WritesT_Writes, wr_bytes_T. Qed.
Definition ne_bytes n v := if native_le then le_bytes n v else be_bytes n v.
Lemma ne_bytes_length n v : length (ne_bytes n v) = n.
Proof. unfold ne_bytes. destruct native_le; [apply le_bytes_length|apply be_bytes_length]. Qed.
Lemma ne_bytes_wf n v : wf_bytes (ne_bytes n v).
Proof. unfold ne_bytes. destruct native_le; [apply le_bytes_wf|apply be_bytes_wf]. Qed.
Lemma wr_ne_eq n v : wr_ne n v = wr_bytes (ne_bytes n v).
Proof. unfold wr_ne, ne_bytes. now destruct native_le. Qed.
Lemma wr_ne_T n v : WritesT (wr_ne n v) (ne_bytes n v).
Proof. rewrite wr_ne_eq. apply wr_bytes_T. Qed.

Lemma gwrite_state w bs p buf :
  Writes w bs -> length p <= length buf ->
  (length (p ++ bs) <= length buf /\
   gwrite w (p ++ skipn (length p) buf) (length p)
   = Ok ((p ++ bs) ++ skipn (length (p ++ bs)) buf, length (p ++ bs)))
  \/ exists e, gwrite w (p ++ skipn (length p) buf) (length p) = Err e.
Proof.
  intros W L. unfold gwrite.
  destruct (end_bad _ _) eqn:E; [right; eauto|].
  rewrite skipn_app_exact by reflexivity. rewrite firstn_app_exact by reflexivity.
  destruct (writes_any _ _ W (skipn (length p) buf)) as [[Lb Eb]|[e Eb]]; rewrite Eb; [left|right; eauto].
  rewrite skipn_length in Lb. rewrite app_length. split; [lia|].
  rewrite skipn_skipn_add, app_assoc. reflexivity.
Qed.
Lemma gwrite_state_ok w bs p buf :
  Writes w bs -> length p + length bs + slack <= length buf ->
  gwrite w (p ++ skipn (length p) buf) (length p)
   = Ok ((p ++ bs) ++ skipn (length (p ++ bs)) buf, length (p ++ bs)).
Proof.
  intros W L. unfold gwrite. rewrite end_bad_false.
  2:{ rewrite app_length, skipn_length. lia. }
  rewrite skipn_app_exact by reflexivity. rewrite firstn_app_exact by reflexivity.
  rewrite (writes_ok _ _ W). 2:{ rewrite skipn_length. lia. }
  rewrite app_length, skipn_skipn_add, app_assoc. reflexivity.
Qed.
Lemma gwrite_state_T w bs p buf :
  WritesT w bs -> bs <> [] -> length p + length bs <= length buf ->
  gwrite w (p ++ skipn (length p) buf) (length p)
   = Ok ((p ++ bs) ++ skipn (length (p ++ bs)) buf, length (p ++ bs)).
Proof.
  intros [_ W] N L. unfold gwrite. rewrite end_bad_lt.
  2:{ rewrite app_length, skipn_length. destruct bs; [congruence|cbn in L; lia]. }
  rewrite skipn_app_exact by reflexivity. rewrite firstn_app_exact by reflexivity.
  rewrite W. 2:{ rewrite skipn_length. lia. }
  rewrite app_length, skipn_skipn_add, app_assoc. reflexivity.
Qed.

Lemma wseq_from_any ws bss : Forall2 Writes ws bss -> forall p buf,
  length p <= length buf ->
  (length (p ++ concat bss) <= length buf /\
   wseq_from ws (p ++ skipn (length p) buf) (length p)
   = Ok ((p ++ concat bss) ++ skipn (length (p ++ concat bss)) buf, length (p ++ concat bss)))
  \/ exists e, wseq_from ws (p ++ skipn (length p) buf) (length p) = Err e.
Proof.
  induction 1 as [|w bs ws bss W F IH]; intros p buf L.
  - left. cbn [concat wseq_from]. rewrite app_nil_r. auto.
  - cbn [concat wseq_from]. destruct (gwrite_state w bs p buf W L) as [[L' E]|[e E]]; rewrite E; cbn [rbind].
    + destruct (IH (p ++ bs) buf L') as [[L2 E2]|[e E2]].
      * left. rewrite app_assoc. split; assumption.
      * right. exists e. exact E2.
    + right. eauto.
Qed.
Lemma wseq_from_ok ws bss : Forall2 Writes ws bss -> forall p buf,
  length p + length (concat bss) + slack <= length buf ->
  wseq_from ws (p ++ skipn (length p) buf) (length p)
  = Ok ((p ++ concat bss) ++ skipn (length (p ++ concat bss)) buf, length (p ++ concat bss)).
Proof.
  induction 1 as [|w bs ws bss W F IH]; intros p buf L.
  - cbn [concat wseq_from]. rewrite app_nil_r. reflexivity.
  - cbn [concat wseq_from] in *. rewrite app_length in L.
    rewrite (gwrite_state_ok w bs p buf W) by lia. cbn [rbind].
    rewrite IH by (rewrite app_length; lia). rewrite app_assoc. reflexivity.
Qed.
Lemma wseq_W ws bss : Forall2 Writes ws bss -> Writes (wseq ws) (concat bss).
Proof.
  intros F. split.
  - intros buf. exact (wseq_from_any ws bss F [] buf (Nat.le_0_l _)).
  - intros buf L. exact (wseq_from_ok ws bss F [] buf L).
Qed.
Lemma wseq_from_app ws1 ws2 buf off :
  wseq_from (ws1 ++ ws2) buf off = ('(b, o) <- wseq_from ws1 buf off ;; wseq_from ws2 b o).
Proof.
  revert buf off; induction ws1 as [|w ws1 IH]; intros buf off; cbn [wseq_from app rbind]; [reflexivity|].
  destruct (gwrite w buf off) as [[b o]| |]; cbn [rbind]; [apply IH|reflexivity|reflexivity].
Qed.
(** If the last piece is non-empty no extra byte is needed. *)
Lemma wseq_T ws bss w bs : Forall2 Writes ws bss -> WritesT w bs -> bs <> [] ->
  WritesT (wseq (ws ++ [w])) (concat bss ++ bs).
Proof.
  intros F T N.
  assert (EC : concat (bss ++ [bs]) = concat bss ++ bs) by (rewrite concat_app; cbn; now rewrite app_nil_r).
  split.
  - rewrite <- EC. apply wseq_W. apply Forall2_app; [exact F|]. constructor; [apply T|constructor].
  - intros buf L. rewrite app_length in L. unfold wseq. rewrite wseq_from_app.
    pose proof (wseq_from_ok ws bss F [] buf) as E. cbn [app length skipn] in E.
    rewrite E. 2:{ pose proof slack_le. destruct bs; [congruence|cbn in L]. lia. }
    cbn [rbind wseq_from]. rewrite (gwrite_state_T w bs (concat bss) buf T N L). reflexivity.
Qed.

(** pwrite at offset 0, as used by thin wrappers *)
Lemma pwrite0_W w bs : Writes w bs -> Writes (fun buf => pwrite w buf 0) bs.
Proof.
  intros W. split.
  - intros buf. unfold pwrite.
    destruct (gwrite_state w bs [] buf W (Nat.le_0_l _)) as [[L E]|[e E]];
      cbn [app length skipn] in *; rewrite E; [left|right; eauto].
    rewrite Nat.sub_0_r. auto.
  - intros buf L. unfold pwrite. pose proof (gwrite_state_ok w bs [] buf W L) as E.
    cbn [app length skipn] in E. rewrite E, Nat.sub_0_r. reflexivity.
Qed.
Lemma pwrite0_T w bs : WritesT w bs -> bs <> [] -> WritesT (fun buf => pwrite w buf 0) bs.
Proof.
  intros T N. split; [apply pwrite0_W, T|]. intros buf L. unfold pwrite.
  pose proof (gwrite_state_T w bs [] buf T N L) as E.
  cbn [app length skipn] in E. rewrite E, Nat.sub_0_r. reflexivity.
Qed.

(** ** Readers *)
Lemma Reads_all {A} (r : reader A) bs x : Reads r bs x -> ReadsAll r bs x.
Proof. intros H. specialize (H []). now rewrite app_nil_r in H. Qed.

Lemma rd_bytes_R bs n : n = length bs -> Reads (rd_bytes n) bs bs.
Proof.
  intros -> rest. unfold rd_bytes. rewrite app_length.
  destruct (Nat.ltb_spec (length bs + length rest) (length bs)); [lia|].
  now rewrite firstn_app_exact.
Qed.
Lemma rd_le_R n v : (v < 256 ^ N.of_nat n)%N -> Reads (rd_le n) (le_bytes n v) v.
Proof.
  intros Hv rest. unfold rd_le. rewrite app_length, le_bytes_length.
  destruct (Nat.ltb_spec (n + length rest) n); [lia|].
  rewrite firstn_app_exact by (now rewrite le_bytes_length).
  now rewrite le_val_bytes_small.
Qed.
Lemma rd_be_R n v : (v < 256 ^ N.of_nat n)%N -> Reads (rd_be n) (be_bytes n v) v.
Proof.
  intros Hv rest. unfold rd_be. rewrite app_length, be_bytes_length.
  destruct (Nat.ltb_spec (n + length rest) n); [lia|].
  rewrite firstn_app_exact by (now rewrite be_bytes_length).
  now rewrite be_val_bytes_small.
Qed.
Lemma rd_ne_R n v : (v < 256 ^ N.of_nat n)%N -> Reads (rd_ne n) (ne_bytes n v) v.
Proof. unfold rd_ne, ne_bytes. destruct native_le; [apply rd_le_R|apply rd_be_R]. Qed.
Lemma rd_u8_R v : Reads rd_u8 [v] v.
Proof. intros rest. reflexivity. Qed.

(** position in the input *)
Definition At (from : bytes) (off : nat) (rest : bytes) : Prop :=
  skipn off from = rest /\ off + length rest = length from.
Lemma At_start from : At from 0 from.
Proof. split; reflexivity. Qed.
Lemma At_app p q off : off = length p -> At (p ++ q) off q.
Proof. intros ->. split; [now apply skipn_app_exact|now rewrite app_length]. Qed.
Lemma At_step from off bs rest : At from off (bs ++ rest) -> At from (off + length bs) rest.
Proof.
  intros [E L]. split.
  - rewrite <- skipn_skipn_add, E. now apply skipn_app_exact.
  - rewrite app_length in L. lia.
Qed.
Lemma gread_at {A} (r : reader A) from off q :
  At from off q -> end_ok q ->
  gread r from off = match r q with Ok (x, n) => Ok (x, off + n) | Err e => Err e | Panic => Panic end.
Proof.
  intros [E L] K. unfold gread. rewrite end_bad_false. 2:{ apply end_ok_slack in K. lia. }
  now rewrite E.
Qed.
Lemma gread_step {A} (r : reader A) from off bs x rest :
  At from off (bs ++ rest) -> Reads r bs x -> bs <> [] ->
  gread r from off = Ok (x, off + length bs).
Proof.
  intros H R N. rewrite (gread_at r from off _ H). 2:{ right. destruct bs; [congruence|discriminate]. }
  now rewrite R.
Qed.
Lemma pread_at {A} (r : reader A) from off q :
  At from off q -> end_ok q ->
  pread r from off = match r q with Ok (x, n) => Ok x | Err e => Err e | Panic => Panic end.
Proof. intros H K. unfold pread. rewrite (gread_at r from off q H K). destruct (r q) as [[x n]| |]; reflexivity. Qed.

Lemma gread_no_panic {A} (r : reader A) from off : NoPanic r -> gread r from off <> Panic.
Proof.
  intros H. unfold gread. destruct (end_bad _ _); [discriminate|].
  specialize (H (skipn off from)). destruct (r (skipn off from)) as [[x n]| |]; congruence.
Qed.
Lemma pread_no_panic {A} (r : reader A) from off : NoPanic r -> pread r from off <> Panic.
Proof.
  intros H. unfold pread. pose proof (gread_no_panic r from off H).
  destruct (gread r from off) as [[x n]| |]; congruence.
Qed.
Lemma gread_bounds {A} (r : reader A) from off x off' :
  InBounds r -> gread r from off = Ok (x, off') -> off <= off' <= length from.
Proof.
  intros H. unfold gread. destruct (end_bad off (length from)) eqn:E; [discriminate|].
  apply end_bad_le in E. destruct (r (skipn off from)) as [[y n]| |] eqn:Er; try discriminate.
  intros [= -> <-]. apply H in Er. rewrite skipn_length in Er. lia.
Qed.
Lemma rd_bytes_NP n : NoPanic (rd_bytes n).
Proof. intros from. unfold rd_bytes. destruct (_ <? _); discriminate. Qed.
Lemma rd_le_NP n : NoPanic (rd_le n).
Proof. intros from. unfold rd_le. destruct (_ <? _); discriminate. Qed.
Lemma rd_be_NP n : NoPanic (rd_be n).
Proof. intros from. unfold rd_be. destruct (_ <? _); discriminate. Qed.
Lemma rd_ne_NP n : NoPanic (rd_ne n).
Proof. unfold rd_ne. destruct native_le; [apply rd_le_NP|apply rd_be_NP]. Qed.
Lemma rd_u8_NP : NoPanic rd_u8.
Proof. intros [|b from]; discriminate. Qed.
Lemma rd_bytes_IB n : InBounds (rd_bytes n).
Proof. intros from x k. unfold rd_bytes. destruct (Nat.ltb_spec (length from) n); [discriminate|]. intros [= _ <-]. lia. Qed.
Lemma rd_le_IB n : InBounds (rd_le n).
Proof. intros from x k. unfold rd_le. destruct (Nat.ltb_spec (length from) n); [discriminate|]. intros [= _ <-]. lia. Qed.
Lemma rd_be_IB n : InBounds (rd_be n).
Proof. intros from x k. unfold rd_be. destruct (Nat.ltb_spec (length from) n); [discriminate|]. intros [= _ <-]. lia. Qed.
Lemma rd_ne_IB n : InBounds (rd_ne n).
Proof. unfold rd_ne. destruct native_le; [apply rd_le_IB|apply rd_be_IB]. Qed.
Lemma rd_u8_IB : InBounds rd_u8.
Proof. intros [|b from] x k; [discriminate|]. intros [= _ <-]. cbn. lia. Qed.
End Facts.
