(** Proofs about CRC-32 and the FCS. *)
From Verif Require Import Base BaseFacts Crc SpecFcs.
Ltac Zify.zify_post_hook ::= Z.div_mod_to_equations.
Local Open Scope N_scope.

(** ** Linearity and injectivity of the CRC register *)
Lemma crc_bit_lxor x y : crc_bit (N.lxor x y) = N.lxor (crc_bit x) (crc_bit y).
Proof.
  unfold crc_bit.
  assert (O : N.odd (N.lxor x y) = xorb (N.odd x) (N.odd y))
    by (rewrite <- !N.bit0_odd; apply N.lxor_spec).
  assert (D : N.div2 (N.lxor x y) = N.lxor (N.div2 x) (N.div2 y))
    by (rewrite !N.div2_spec; apply N.shiftr_lxor).
  rewrite O, D. destruct (N.odd x), (N.odd y); cbn [xorb]; apply N.bits_inj; intros i;
    rewrite ?N.lxor_spec; repeat destruct (N.testbit _ _); reflexivity.
Qed.
Lemma crc_bit_double y : crc_bit (2 * y) = y.
Proof.
  unfold crc_bit. rewrite N.odd_mul. cbn [N.odd andb]. rewrite N.div2_div, N.mul_comm.
  apply N.div_mul. lia.
Qed.
Lemma iter_crc_lxor n x y :
  Nat.iter n crc_bit (N.lxor x y) = N.lxor (Nat.iter n crc_bit x) (Nat.iter n crc_bit y).
Proof. induction n as [|n IH]; cbn [Nat.iter nat_rect]; [reflexivity|]. change (crc_bit (Nat.iter n crc_bit (N.lxor x y)) = N.lxor (crc_bit (Nat.iter n crc_bit x)) (crc_bit (Nat.iter n crc_bit y))). rewrite IH. apply crc_bit_lxor. Qed.
Lemma iter_add {A} (f : A -> A) m n x : Nat.iter (m + n) f x = Nat.iter m f (Nat.iter n f x).
Proof. induction m as [|m IH]; [reflexivity|]. change (f (Nat.iter (m + n) f x) = f (Nat.iter m f (Nat.iter n f x))). now rewrite IH. Qed.
Lemma iter_crc_pow2 n y : Nat.iter n crc_bit (2 ^ N.of_nat n * y) = y.
Proof.
  revert y; induction n as [|n IH]; intros y.
  - cbn [Nat.iter nat_rect N.of_nat]. change (2 ^ 0) with 1. lia.
  - replace (S n) with (n + 1)%nat by lia. rewrite iter_add.
    replace (2 ^ N.of_nat (n + 1) * y) with (2 * (2 ^ N.of_nat n * y)).
    2:{ rewrite Nnat.Nat2N.inj_add. change (N.of_nat 1) with 1. rewrite N.pow_add_r. lia. }
    change (Nat.iter 1 crc_bit (2 * (2 ^ N.of_nat n * y))) with (crc_bit (2 * (2 ^ N.of_nat n * y))).
    rewrite crc_bit_double. apply IH.
Qed.
Lemma crc_bit_bound c : c < 2 ^ 32 -> crc_bit c < 2 ^ 32.
Proof.
  intros H. unfold crc_bit. pose proof (N.div2_spec c) as D. rewrite N.shiftr_div_pow2 in D.
  change (2 ^ 1) with 2 in D. destruct (N.odd c).
  - destruct (N.eq_dec (N.lxor (N.div2 c) crc_poly) 0) as [E|E]; [rewrite E; reflexivity|].
    apply N.log2_lt_pow2; [lia|].
    eapply N.le_lt_trans; [apply N.log2_lxor|]. apply N.max_lub_lt.
    + destruct (N.eq_dec (N.div2 c) 0) as [Z|Z]; [rewrite Z; reflexivity|]. apply N.log2_lt_pow2; lia.
    + reflexivity.
  - lia.
Qed.
Lemma iter_crc_bound n c : c < 2 ^ 32 -> Nat.iter n crc_bit c < 2 ^ 32.
Proof. intros H. induction n as [|n IH]; [exact H|]. apply crc_bit_bound, IH. Qed.
Lemma testbit_small a n : a < 2 ^ n -> N.testbit a n = false.
Proof.
  intros H. destruct (N.eq_dec a 0) as [->|Z]; [apply N.bits_0|].
  apply N.bits_above_log2. apply N.log2_lt_pow2; lia.
Qed.
Lemma crc_bit_zero c : c < 2 ^ 32 -> crc_bit c = 0 -> c = 0.
Proof.
  intros H E. unfold crc_bit in E. pose proof (N.div2_odd c) as DO.
  destruct (N.odd c) eqn:O.
  - exfalso. assert (T : N.testbit (N.lxor (N.div2 c) crc_poly) 31 = true).
    { rewrite N.lxor_spec. rewrite testbit_small; [reflexivity|].
      change (N.b2n true) with 1 in DO. change (2 ^ 31) with 2147483648. change (2 ^ 32) with 4294967296 in H. lia. }
    rewrite E in T. discriminate.
  - rewrite E in DO. cbn in DO. lia.
Qed.
Lemma iter_crc_zero n c : c < 2 ^ 32 -> Nat.iter n crc_bit c = 0 -> c = 0.
Proof.
  intros H. induction n as [|n IH]; intros E; [exact E|]. apply IH. apply crc_bit_zero; [|exact E].
  now apply iter_crc_bound.
Qed.
Lemma lxor_bound32 a b : a < 2 ^ 32 -> b < 2 ^ 32 -> N.lxor a b < 2 ^ 32.
Proof.
  intros Ha Hb. destruct (N.eq_dec (N.lxor a b) 0) as [E|E]; [rewrite E; reflexivity|].
  apply N.log2_lt_pow2; [lia|]. eapply N.le_lt_trans; [apply N.log2_lxor|]. apply N.max_lub_lt.
  - destruct (N.eq_dec a 0) as [->|Z]; [reflexivity|]. apply N.log2_lt_pow2; lia.
  - destruct (N.eq_dec b 0) as [->|Z]; [reflexivity|]. apply N.log2_lt_pow2; lia.
Qed.
Lemma iter_crc_inj n x y : x < 2 ^ 32 -> y < 2 ^ 32 ->
  Nat.iter n crc_bit x = Nat.iter n crc_bit y -> x = y.
Proof.
  intros Hx Hy E. apply N.lxor_eq. apply (iter_crc_zero n).
  - now apply lxor_bound32.
  - rewrite iter_crc_lxor, E. apply N.lxor_nilpotent.
Qed.

(** ** The CRC of a byte string as a function of its value *)
Lemma add_lxor_disjoint b v k : b < 2 ^ k -> b + 2 ^ k * v = N.lxor b (2 ^ k * v).
Proof.
  intros H. apply N.add_nocarry_lxor. apply N.bits_inj. intros i. rewrite N.land_spec, N.bits_0.
  destruct (N.ltb_spec i k) as [L|L].
  - rewrite (N.mul_comm (2 ^ k)), N.mul_pow2_bits_low by exact L. apply andb_false_r.
  - replace (N.testbit b i) with false; [reflexivity|]. symmetry. apply testbit_small.
    eapply N.lt_le_trans; [exact H|]. apply N.pow_le_mono_r; lia.
Qed.
Lemma crc_bytes_val bs : wf_bytes bs -> forall c,
  crc_bytes c bs = Nat.iter (8 * length bs) crc_bit (N.lxor c (le_val bs)).
Proof.
  induction bs as [|b bs IH]; intros W c.
  - cbn [crc_bytes fold_left length le_val Nat.mul Nat.iter nat_rect]. now rewrite N.lxor_0_r.
  - apply wf_bytes_cons in W as [Hb W].
    change (crc_bytes c (b :: bs)) with (crc_bytes (crc_byte c b) bs). rewrite IH by exact W.
    unfold crc_byte. cbn [length le_val].
    replace (8 * S (length bs))%nat with (8 * length bs + 8)%nat by lia.
    rewrite iter_add. f_equal.
    change 256 with (2 ^ 8). rewrite (add_lxor_disjoint b (le_val bs) 8) by exact Hb.
    rewrite <- N.lxor_assoc, (iter_crc_lxor 8 (N.lxor c b)).
    f_equal. symmetry. exact (iter_crc_pow2 8 (le_val bs)).
Qed.
Lemma crc_bytes_bound bs c : wf_bytes bs -> c < 2 ^ 32 -> crc_bytes c bs < 2 ^ 32.
Proof.
  intros W. revert c. induction bs as [|b bs IH]; intros c Hc; [exact Hc|].
  apply wf_bytes_cons in W as [Hb W]. change (crc_bytes (crc_byte c b) bs < 2 ^ 32).
  apply IH; [exact W|]. apply iter_crc_bound, lxor_bound32; [exact Hc|].
  eapply N.lt_trans; [exact Hb|reflexivity].
Qed.
Lemma crc32_bound bs : wf_bytes bs -> crc32 bs < 2 ^ 32.
Proof. intros W. apply lxor_bound32; [apply crc_bytes_bound; [exact W|reflexivity]|reflexivity]. Qed.
Lemma crc_bytes_app c a b : crc_bytes c (a ++ b) = crc_bytes (crc_bytes c a) b.
Proof. apply fold_left_app. Qed.

(** running the CRC over a frame including its FCS gives a constant exactly if the FCS is right *)
Definition crc_residue : N := Nat.iter 32 crc_bit crc_ones.
Lemma residue_iff body fcs : wf_bytes body -> wf_bytes fcs -> length fcs = 4%nat ->
  (crc_bytes crc_ones (body ++ fcs) = crc_residue <-> le_val fcs = crc32 body).
Proof.
  intros Wb Wf L. rewrite crc_bytes_app, (crc_bytes_val fcs Wf), L. unfold crc_residue, crc32.
  change (8 * 4)%nat with 32%nat.
  pose proof (crc_bytes_bound body crc_ones Wb eq_refl) as B.
  pose proof (le_val_bound fcs Wf) as F. rewrite L in F. change (256 ^ N.of_nat 4) with (2 ^ 32) in F.
  generalize dependent (crc_bytes crc_ones body). intros C B.
  split; intros E.
  - apply iter_crc_inj in E; [|now apply lxor_bound32|reflexivity].
    rewrite <- E, <- N.lxor_assoc, N.lxor_nilpotent. symmetry. apply N.lxor_0_l.
  - rewrite E, <- N.lxor_assoc, N.lxor_nilpotent, N.lxor_0_l. reflexivity.
Qed.

Lemma lxor_le_val_bits x y k d : N.lxor x y = 2 ^ N.of_nat k * d -> d < 2 ^ 32 -> d <> 0 ->
  forall n c, (k <= n)%nat ->
  Nat.iter n crc_bit (N.lxor c x) <> Nat.iter n crc_bit (N.lxor c y).
Proof.
  intros E D Z n c L H.
  assert (X : Nat.iter n crc_bit (N.lxor x y) = 0).
  { replace (N.lxor x y) with (N.lxor (N.lxor c x) (N.lxor c y)).
    - rewrite iter_crc_lxor, H. apply N.lxor_nilpotent.
    - apply N.bits_inj. intros i. rewrite !N.lxor_spec. repeat destruct (N.testbit _ _); reflexivity. }
  rewrite E in X. replace n with ((n - k) + k)%nat in X by lia.
  rewrite iter_add, iter_crc_pow2 in X. now apply iter_crc_zero in X.
Qed.

Local Close Scope N_scope.

Lemma testbit_add_mul256 b v i : (b < 256)%N ->
  N.testbit (b + 256 * v) i = if (i <? 8)%N then N.testbit b i else N.testbit v (i - 8).
Proof.
  intros H. change 256%N with (2 ^ 8)%N. rewrite (add_lxor_disjoint b v 8) by exact H.
  rewrite N.lxor_spec, (N.mul_comm (2 ^ 8)). destruct (N.ltb_spec i 8) as [L|L].
  - rewrite N.mul_pow2_bits_low by exact L. apply xorb_false_r.
  - rewrite N.mul_pow2_bits_high by exact L.
    rewrite (testbit_small b i); [apply xorb_false_l|].
    eapply N.lt_le_trans; [exact H|]. change 256%N with (2 ^ 8)%N. apply N.pow_le_mono_r; lia.
Qed.
Lemma le_val_testbit bs : wf_bytes bs -> forall i, N.testbit (le_val bs) (N.of_nat i) = frame_bit bs i.
Proof.
  unfold frame_bit. induction bs as [|b bs IH]; intros W i.
  - cbn [le_val]. rewrite N.bits_0. destruct (i / 8); now rewrite N.bits_0.
  - apply wf_bytes_cons in W as [Hb W]. cbn [le_val]. rewrite testbit_add_mul256 by exact Hb.
    destruct (N.ltb_spec (N.of_nat i) 8) as [L|L].
    + rewrite Nat.div_small by lia. rewrite Nat.mod_small by lia. reflexivity.
    + replace (N.of_nat i - 8)%N with (N.of_nat (i - 8)) by lia. rewrite IH by exact W.
      replace (i / 8) with (S ((i - 8) / 8)) by lia. cbn [nth].
      replace (i mod 8) with ((i - 8) mod 8) by lia. reflexivity.
Qed.

Section Fcs.
Context {cfg : Cfg}.

(** accepted exactly when the last four bytes are the little-endian CRC of the rest *)
Lemma strip_fcs_cases bs : wf_bytes bs ->
  match strip_and_validate_fcs bs with
  | Ok body => bs = body ++ le_bytes 4 (crc32 body)
  | Err _ => 4 <= length bs /\ forall body, bs <> body ++ le_bytes 4 (crc32 body)
  | Panic => length bs < 4
  end.
Proof.
  intros W. unfold strip_and_validate_fcs, usub.
  destruct (Nat.leb_spec 4 (length bs)) as [L|L]; cbn [rbind]; [|exact L].
  set (n := length bs - 4). set (fcs := skipn n bs).
  assert (Lf : length fcs = 4) by (unfold fcs; rewrite skipn_length; lia).
  assert (Wf : wf_bytes fcs) by (now apply wf_skipn).
  assert (Wb : wf_bytes (firstn n bs)) by (now apply wf_firstn).
  assert (R : pread (rd_le 4) fcs 0 = Ok (le_val fcs)).
  { rewrite (pread_at _ fcs 0 fcs (At_start fcs)).
    - unfold rd_le. rewrite Lf. cbn [Nat.ltb Nat.leb].
      replace (firstn 4 fcs) with fcs; [reflexivity|]. rewrite <- Lf. now rewrite firstn_all.
    - right. intros E. rewrite E in Lf. discriminate. }
  rewrite R. cbn [rbind].
  destruct (N.eqb_spec (le_val fcs) (crc32 (firstn n bs))) as [E|E].
  - rewrite <- E, <- Lf, le_bytes_val by exact Wf. symmetry. apply firstn_skipn.
  - split; [exact L|]. intros body Hb. apply E.
    assert (Lb : length bs = length body + 4) by (rewrite Hb, app_length, le_bytes_length; reflexivity).
    assert (En : n = length body) by lia.
    unfold fcs. rewrite En, Hb. rewrite skipn_app_exact, firstn_app_exact by reflexivity.
    apply le_val_bytes_small. apply (crc32_bound body). rewrite Hb in W. now apply wf_bytes_app in W.
Qed.
Lemma strip_fcs_ok body : wf_bytes body ->
  strip_and_validate_fcs (body ++ le_bytes 4 (crc32 body)) = Ok body.
Proof.
  intros W.
  assert (W' : wf_bytes (body ++ le_bytes 4 (crc32 body))).
  { apply wf_bytes_app. split; [exact W|apply le_bytes_wf]. }
  pose proof (strip_fcs_cases _ W') as H.
  destruct (strip_and_validate_fcs _) as [b| |].
  - assert (length body = length b).
    { apply (f_equal (@length N)) in H. rewrite !app_length, !le_bytes_length in H. lia. }
    apply (f_equal (firstn (length body))) in H. rewrite firstn_app_exact in H by reflexivity.
    rewrite firstn_app_exact in H by assumption. now subst.
  - destruct H as [_ H]. now elim (H body).
  - rewrite app_length, le_bytes_length in H. lia.
Qed.

(** Two accepted strings of equal length never differ only inside 32 consecutive bits. *)
Lemma fcs_burst f1 f2 k :
  wf_bytes f1 -> wf_bytes f2 -> length f1 = length f2 ->
  (forall i, i < k \/ k + 32 <= i -> frame_bit f1 i = frame_bit f2 i) ->
  f1 <> f2 ->
  (exists body, strip_and_validate_fcs f1 = Ok body) ->
  exists e, strip_and_validate_fcs f2 = Err e.
Proof.
  intros W1 W2 L Hb N [body E1].
  pose proof (strip_fcs_cases f1 W1) as C1. rewrite E1 in C1.
  pose proof (strip_fcs_cases f2 W2) as C2.
  destruct (strip_and_validate_fcs f2) as [body2|e|]; [exfalso|eauto|exfalso].
  2:{ rewrite <- L, C1, app_length, le_bytes_length in C2. lia. }
  assert (R : forall b, wf_bytes (b ++ le_bytes 4 (crc32 b)) ->
            crc_bytes crc_ones (b ++ le_bytes 4 (crc32 b)) = crc_residue).
  { intros b Hw. apply wf_bytes_app in Hw as [Hw _].
    apply residue_iff; [exact Hw|apply le_bytes_wf|apply le_bytes_length|].
    apply le_val_bytes_small. exact (crc32_bound b Hw). }
  pose proof (R body) as R1. rewrite <- C1 in R1. specialize (R1 W1).
  pose proof (R body2) as R2. rewrite <- C2 in R2. specialize (R2 W2).
  set (x := le_val f1) in *. set (y := le_val f2) in *.
  assert (NZ : x <> y).
  { intros E. apply N. unfold x, y in E. rewrite <- (le_bytes_val f1 W1), <- (le_bytes_val f2 W2).
    now rewrite L, E. }
  assert (Bx : forall i, N.testbit (N.lxor x y) (N.of_nat i) = xorb (frame_bit f1 i) (frame_bit f2 i)).
  { intros i. rewrite N.lxor_spec. unfold x, y. now rewrite !le_val_testbit. }
  set (d := N.shiftr (N.lxor x y) (N.of_nat k)).
  assert (Ed : N.lxor x y = (2 ^ N.of_nat k * d)%N).
  { apply N.bits_inj. intros j. rewrite <- (N2Nat.id j). rewrite (N.mul_comm (2 ^ N.of_nat k)).
    destruct (N.ltb_spec (N.of_nat (N.to_nat j)) (N.of_nat k)) as [Lj|Lj].
    - rewrite N.mul_pow2_bits_low by exact Lj. rewrite Bx, Hb by lia. apply xorb_nilpotent.
    - rewrite N.mul_pow2_bits_high by exact Lj. unfold d. rewrite N.shiftr_spec'.
      f_equal. lia. }
  assert (Dz : d <> 0%N).
  { intros Z. rewrite Z, N.mul_0_r in Ed. apply N.lxor_eq in Ed. contradiction. }
  assert (Db : (d < 2 ^ 32)%N).
  { destruct (N.ltb_spec d (2 ^ 32)) as [T|T]; [exact T|exfalso].
    assert (HL : (32 <= N.log2 d)%N) by (apply N.log2_le_pow2; [lia|exact T]).
    pose proof (N.bit_log2 d Dz) as BL. unfold d in BL at 1. rewrite N.shiftr_spec' in BL.
    rewrite <- (N2Nat.id (N.log2 d + N.of_nat k)) in BL. rewrite Bx, Hb in BL by lia.
    now rewrite xorb_nilpotent in BL. }
  assert (Kb : k <= 8 * length f1).
  { destruct (le_lt_dec k (8 * length f1)) as [T|T]; [exact T|exfalso]. apply NZ, N.lxor_eq.
    apply N.bits_inj. intros j. rewrite N.bits_0, <- (N2Nat.id j), Bx.
    destruct (le_lt_dec k (N.to_nat j)) as [Q|Q].
    - assert (O : forall f, length f = length f1 -> frame_bit f (N.to_nat j) = false).
      { intros f Lf. unfold frame_bit. rewrite nth_overflow; [apply N.bits_0|]. lia. }
      rewrite !O by congruence. reflexivity.
    - rewrite Hb by lia. apply xorb_nilpotent. }
  apply (lxor_le_val_bits x y k d Ed Db Dz (8 * length f1) crc_ones Kb).
  unfold x, y. rewrite <- crc_bytes_val by exact W1. rewrite L, <- crc_bytes_val by exact W2. congruence.
Qed.

(** attach *)
Lemma attach_fcs_any p buf : length p <= length buf ->
  (length p + 4 <= length buf ->
   attach_fcs (p ++ skipn (length p) buf) (length p)
   = Ok ((p ++ le_bytes 4 (crc32 p)) ++ skipn (length p + 4) buf, length p + 4)) /\
  (length buf < length p + 4 ->
   exists e, attach_fcs (p ++ skipn (length p) buf) (length p) = Err e).
Proof.
  intros L. unfold attach_fcs. rewrite slice_to_ok by (rewrite app_length; lia).
  cbn [rbind]. rewrite firstn_app_exact by reflexivity. split; intros H.
  - rewrite (gwrite_state_T (wr_le 4 (crc32 p)) (le_bytes 4 (crc32 p)) p buf).
    + now rewrite app_length, le_bytes_length.
    + apply wr_bytes_T.
    + discriminate.
    + rewrite le_bytes_length. exact H.
  - destruct (gwrite_state (wr_le 4 (crc32 p)) (le_bytes 4 (crc32 p)) p buf) as [[H' _]|E]; auto.
    + apply wr_bytes_W.
    + rewrite app_length, le_bytes_length in H'. lia.
Qed.
Lemma attach_fcs_spec p rest :
  (4 <= length rest ->
     attach_fcs (p ++ rest) (length p)
     = Ok (p ++ le_bytes 4 (crc32 p) ++ skipn 4 rest, length p + 4))
  /\ (length rest < 4 -> exists e, attach_fcs (p ++ rest) (length p) = Err e).
Proof.
  assert (L : length p <= length (p ++ rest)) by (rewrite app_length; lia).
  destruct (attach_fcs_any p (p ++ rest) L) as [A B].
  rewrite skipn_app_exact in A, B by reflexivity. rewrite app_length in A, B. split; intros H.
  - rewrite A by lia. rewrite <- app_assoc. do 3 f_equal.
    rewrite <- skipn_skipn_add. now rewrite skipn_app_exact.
  - apply B. lia.
Qed.
Lemma strip_fcs_spec bs : wf_bytes bs ->
  (forall body, strip_and_validate_fcs bs = Ok body <-> bs = body ++ le_bytes 4 (crc32 body))
  /\ (strip_and_validate_fcs bs = Panic <-> length bs < 4).
Proof.
  intros W. split.
  - intros body. split.
    + intros E. pose proof (strip_fcs_cases bs W) as H. now rewrite E in H.
    + intros ->. apply strip_fcs_ok. now apply wf_bytes_app in W.
  - pose proof (strip_fcs_cases bs W) as H. destruct (strip_and_validate_fcs bs) as [b| |] eqn:E.
    + split; [discriminate|]. intros L. rewrite H, app_length, le_bytes_length in L. lia.
    + split; [discriminate|]. lia.
    + tauto.
Qed.
Lemma attach_then_strip p rest : wf_bytes p -> 4 <= length rest ->
  exists buf', attach_fcs (p ++ rest) (length p) = Ok (buf', length p + 4) /\
               strip_and_validate_fcs (firstn (length p + 4) buf') = Ok p.
Proof.
  intros W L. destruct (attach_fcs_spec p rest) as [A _]. eexists. split; [apply A, L|].
  rewrite app_assoc, firstn_app_exact. 2:{ now rewrite app_length, le_bytes_length. }
  now apply strip_fcs_ok.
Qed.
Lemma frame_bit_app p q i :
  frame_bit (p ++ q) i = if i <? 8 * length p then frame_bit p i else frame_bit q (i - 8 * length p).
Proof.
  unfold frame_bit. destruct (Nat.ltb_spec i (8 * length p)) as [L|L].
  - rewrite app_nth1; [reflexivity|]. lia.
  - rewrite app_nth2 by lia. f_equal; [f_equal; lia|f_equal; lia].
Qed.
Lemma fcs_four_bytes p w w' q :
  wf_bytes (p ++ w ++ q) -> wf_bytes w' -> length w' = length w -> length w <= 4 -> w <> w' ->
  (exists body, strip_and_validate_fcs (p ++ w ++ q) = Ok body) ->
  exists e, strip_and_validate_fcs (p ++ w' ++ q) = Err e.
Proof.
  intros W W' L L4 N H. apply wf_bytes_app in W as [Wp Wq]. apply wf_bytes_app in Wq as [Ww Wq].
  apply (fcs_burst (p ++ w ++ q) (p ++ w' ++ q) (8 * length p)); auto.
  - apply wf_bytes_app. split; [exact Wp|]. apply wf_bytes_app. now split.
  - apply wf_bytes_app. split; [exact Wp|]. apply wf_bytes_app. now split.
  - rewrite !app_length. lia.
  - intros i Hi. rewrite !frame_bit_app. destruct (Nat.ltb_spec i (8 * length p)); [reflexivity|].
    destruct Hi as [Hi|Hi]; [lia|]. rewrite L.
    destruct (Nat.ltb_spec (i - 8 * length p) (8 * length w)); [lia|reflexivity].
  - intros E. apply app_inv_head in E. apply N.
    apply (f_equal (firstn (length w))) in E. now rewrite !firstn_app_exact in E by (symmetry; auto; congruence).
Qed.
End Fcs.

(** test vector: CRC-32 of "123456789" *)
Example crc32_check : crc32 [49;50;51;52;53;54;55;56;57]%N = 0xCBF43926%N.
Proof. vm_compute. reflexivity. Qed.
