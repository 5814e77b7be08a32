(** The modelled CRC-32 is the frame check sequence of the standard. *)
From Verif Require Import Base BaseFacts Crc SpecFcs CrcFacts.
Local Open Scope N_scope.

Lemma mul2_lxor a b : 2 * N.lxor a b = N.lxor (2 * a) (2 * b).
Proof.
  apply N.bits_inj. intros i. rewrite N.lxor_spec. destruct i as [|p] using N.peano_ind; [now rewrite !N.testbit_even_0|].
  rewrite <- N.lxor_spec. rewrite N.testbit_even_succ by lia. rewrite !N.lxor_spec, !N.testbit_even_succ by lia. reflexivity.
Qed.
Lemma poly_mul_double a g : poly_mul (2 * a) g = 2 * poly_mul a g.
Proof. destruct a; reflexivity. Qed.
Lemma poly_mul_odd a g : poly_mul (2 * a + 1) g = N.lxor g (2 * poly_mul a g).
Proof. destruct a; [|reflexivity]. cbn. now rewrite N.lxor_0_r. Qed.
Lemma parity (a : N) : a = 2 * N.div2 a + N.b2n (N.odd a).
Proof. apply N.div2_odd. Qed.
Lemma lxor_cases a b x y : x < 2 -> y < 2 -> N.lxor (2 * a + x) (2 * b + y) = 2 * N.lxor a b + N.lxor x y.
Proof.
  assert (K : forall a x, x < 2 -> 2 * a + x = N.lxor x (2 * a)).
  { intros c z Z. rewrite N.add_comm. change 2 with (2 ^ 1) in *. now apply add_lxor_disjoint. }
  intros X Y. rewrite (K a x X), (K b y Y). rewrite (K (N.lxor a b)).
  - rewrite mul2_lxor. apply N.bits_inj. intros i. rewrite !N.lxor_spec. repeat destruct (N.testbit _ i); reflexivity.
  - assert (x = 0 \/ x = 1) as [->| ->] by lia; assert (y = 0 \/ y = 1) as [->| ->] by lia; reflexivity.
Qed.
Lemma lxor_swap a b c d : N.lxor (N.lxor a b) (N.lxor c d) = N.lxor (N.lxor a c) (N.lxor b d).
Proof. apply N.bits_inj. intros i. rewrite !N.lxor_spec. repeat destruct (N.testbit _ i); reflexivity. Qed.
Lemma poly_mul_step a x g : x < 2 -> poly_mul (2 * a + x) g = N.lxor (x * g) (2 * poly_mul a g).
Proof.
  intros X. assert (x = 0 \/ x = 1) as [->| ->] by lia.
  - rewrite N.add_0_r, poly_mul_double, N.mul_0_l, N.lxor_0_l. reflexivity.
  - now rewrite poly_mul_odd, N.mul_1_l.
Qed.
Lemma b2n_lt b : N.b2n b < 2.
Proof. destruct b; reflexivity. Qed.
Lemma half_lt a : a <> 0 -> N.div2 a < a.
Proof. intros H. pose proof (parity a). pose proof (b2n_lt (N.odd a)). lia. Qed.

Lemma poly_mul_lxor g a : forall b, poly_mul (N.lxor a b) g = N.lxor (poly_mul a g) (poly_mul b g).
Proof.
  induction a as [a IH] using (well_founded_induction N.lt_wf_0). intros b.
  destruct (N.eq_dec a 0) as [->|NZ]; [now rewrite !N.lxor_0_l|].
  specialize (IH (N.div2 a) (half_lt a NZ)). pose proof (parity a) as A. pose proof (parity b) as B.
  generalize dependent (N.div2 a). intros a' IH A. generalize dependent (N.div2 b). intros b' B.
  generalize dependent (N.odd a). intros x A. generalize dependent (N.odd b). intros y B. subst a b.
  rewrite lxor_cases by apply b2n_lt. rewrite !poly_mul_step by (try apply b2n_lt; destruct x, y; reflexivity).
  rewrite IH, mul2_lxor, (lxor_swap (N.b2n x * g)). f_equal.
  destruct x, y; cbn [N.b2n]; change (N.lxor 1 1) with 0; change (N.lxor 1 0) with 1; change (N.lxor 0 1) with 1; change (N.lxor 0 0) with 0;
    rewrite ?N.mul_1_l, ?N.mul_0_l, ?N.lxor_0_l, ?N.lxor_0_r, ?N.lxor_nilpotent; reflexivity.
Qed.

(** the degree of a product *)
Lemma poly_mul_high g d : N.testbit g d = true -> (forall e, d < e -> N.testbit g e = false) ->
  forall q, q <> 0 -> exists e, d <= e /\ N.testbit (poly_mul q g) e = true /\ (forall e', e < e' -> N.testbit (poly_mul q g) e' = false) /\
    (q <> 1 -> d < e).
Proof.
  intros T U q. induction q as [q IH] using (well_founded_induction N.lt_wf_0). intros NZ.
  destruct (N.eq_dec (N.div2 q) 0) as [Z|Z].
  - assert (q = 1) as ->. { pose proof (parity q) as P. rewrite Z in P. pose proof (b2n_lt (N.odd q)). lia. }
    exists d. cbn [poly_mul mul_pos]. repeat split; [lia|exact T|exact U|congruence].
  - destruct (IH _ (half_lt q NZ) Z) as (e & L & E & V & _). exists (N.succ e).
    assert (X : forall k, d < k -> N.testbit (poly_mul q g) k = N.testbit (poly_mul (N.div2 q) g) (N.pred k)).
    { intros k K. rewrite (parity q) at 1. rewrite poly_mul_step by apply b2n_lt. rewrite N.lxor_spec.
      replace (N.testbit (N.b2n (N.odd q) * g) k) with false.
      - rewrite xorb_false_l. replace k with (N.succ (N.pred k)) at 1 by lia. apply N.testbit_even_succ. lia.
      - destruct (N.odd q); cbn [N.b2n]; [rewrite N.mul_1_l; symmetry; now apply U|now rewrite N.mul_0_l, N.bits_0]. }
    split; [lia|]. split; [|split].
    + rewrite X by lia. now rewrite N.pred_succ.
    + intros e' K. rewrite X by lia. apply V. lia.
    + lia.
Qed.

Lemma remainder_unique a r r' : remainder a r -> remainder a r' -> r = r'.
Proof.
  intros (B & q & E) (B' & q' & E'). rewrite E in E'. clear E.
  assert (X : poly_mul (N.lxor q q') generator = N.lxor r r').
  { rewrite poly_mul_lxor. apply N.bits_inj. intros i. pose proof (f_equal (fun z => N.testbit z i) E') as Y. cbv beta in Y.
    rewrite !N.lxor_spec in *. revert Y. repeat destruct (N.testbit _ i); cbn; congruence. }
  destruct (N.eq_dec (N.lxor q q') 0) as [Z|Z].
  - rewrite Z in X. cbn [poly_mul] in X. symmetry in X. now apply N.lxor_eq.
  - exfalso. destruct (poly_mul_high generator 32 eq_refl) with (q := N.lxor q q') as (e & L & T & _ & _); [|exact Z|].
    + intros e L. apply testbit_small. eapply N.lt_le_trans; [|apply (N.pow_le_mono_r 2 33); lia]. reflexivity.
    + rewrite X in T. rewrite (testbit_small _ e) in T; [discriminate|].
      eapply N.lt_le_trans; [apply lxor_bound32; eassumption|]. now apply N.pow_le_mono_r.
Qed.
Lemma remainder_lxor a b r s : remainder a r -> remainder b s -> remainder (N.lxor a b) (N.lxor r s).
Proof.
  intros (B & q & ->) (B' & q' & ->). split; [now apply lxor_bound32|]. exists (N.lxor q q'). rewrite poly_mul_lxor. apply lxor_swap.
Qed.
(** times [x] *)
Definition shift_reg (r : N) : N := if N.testbit r 31 then N.lxor (2 * r) generator else 2 * r.
Lemma shift_bound r : r < 2 ^ 32 -> shift_reg r < 2 ^ 32.
Proof.
  intros B. unfold shift_reg. destruct (N.testbit r 31) eqn:T.
  - assert (X : forall i, 32 <= i -> N.testbit (N.lxor (2 * r) generator) i = false).
    { intros i L. rewrite N.lxor_spec. replace i with (N.succ (N.pred i)) at 1 by lia. rewrite N.testbit_even_succ by lia.
      destruct (N.eq_dec i 32) as [->|NE].
      - change (N.pred 32) with 31. now rewrite T.
      - rewrite (testbit_small r), (testbit_small generator); [reflexivity| |].
        + eapply N.lt_le_trans; [|apply (N.pow_le_mono_r 2 33); lia]. reflexivity.
        + eapply N.lt_le_trans; [exact B|]. apply N.pow_le_mono_r; lia. }
    destruct (N.eq_dec (N.lxor (2 * r) generator) 0) as [->|NZ]; [reflexivity|].
    apply N.log2_lt_pow2; [lia|]. destruct (N.lt_ge_cases (N.log2 (N.lxor (2 * r) generator)) 32) as [L|L]; [exact L|].
    apply X in L. rewrite N.bit_log2 in L by exact NZ. discriminate.
  - assert (r < 2 ^ 31); [|change (2 ^ 32) with (2 * 2 ^ 31); lia].
    destruct (N.eq_dec r 0) as [->|NZ]; [reflexivity|]. apply N.log2_lt_pow2; [lia|].
    apply N.log2_lt_pow2 in B; [|lia]. assert (N.log2 r <> 31); [|lia]. intros E. rewrite <- E, N.bit_log2 in T by exact NZ. discriminate.
Qed.
Lemma remainder_shift a r : remainder a r -> remainder (2 * a) (shift_reg r).
Proof.
  intros (B & q & ->). split; [now apply shift_bound|]. unfold shift_reg. destruct (N.testbit r 31).
  - exists (2 * q + 1). rewrite poly_mul_odd, mul2_lxor. apply N.bits_inj. intros i. rewrite !N.lxor_spec.
    repeat destruct (N.testbit _ i); reflexivity.
  - exists (2 * q). rewrite poly_mul_double. apply mul2_lxor.
Qed.
Lemma remainder_small r : r < 2 ^ 32 -> remainder r r.
Proof. intros B. split; [exact B|]. exists 0. now rewrite N.lxor_0_l. Qed.
Lemma remainder_exists a : exists r, remainder a r.
Proof.
  induction a as [a IH] using (well_founded_induction N.lt_wf_0).
  destruct (N.eq_dec a 0) as [->|NZ]; [exists 0; now apply remainder_small|].
  destruct (IH _ (half_lt a NZ)) as (r & R). exists (N.lxor (N.b2n (N.odd a)) (shift_reg r)). rewrite (parity a) at 1.
  rewrite N.add_comm. change 2 with (2 ^ 1) at 1. rewrite add_lxor_disjoint by apply b2n_lt.
  apply remainder_lxor; [|now apply remainder_shift]. apply remainder_small. eapply N.lt_trans; [apply b2n_lt|reflexivity].
Qed.

(** the register of the reflected algorithm holds the remainder in reverse order *)
Definition mirrors (c r : N) : Prop := c < 2 ^ 32 /\ forall i : nat, (i < 32)%nat -> N.testbit c (N.of_nat i) = N.testbit r (N.of_nat (31 - i)).
Lemma poly_mirrors : forall i : nat, (i < 32)%nat -> N.testbit crc_poly (N.of_nat i) = N.testbit generator (N.of_nat (31 - i)).
Proof.
  assert (X : forallb (fun i => Bool.eqb (N.testbit crc_poly (N.of_nat i)) (N.testbit generator (N.of_nat (31 - i)))) (seq 0 32) = true)
    by reflexivity.
  rewrite forallb_forall in X. intros i L. apply Bool.eqb_prop, X, in_seq. lia.
Qed.
Lemma mirrors_shift c r : r < 2 ^ 32 -> mirrors c r -> mirrors (crc_bit c) (shift_reg r).
Proof.
  intros R (B & M). split; [now apply crc_bit_bound|]. intros i L.
  assert (O : N.odd c = N.testbit r 31). { rewrite <- N.bit0_odd. exact (M 0%nat ltac:(lia)). }
  assert (D : N.testbit (N.div2 c) (N.of_nat i) = N.testbit (2 * r) (N.of_nat (31 - i))).
  { rewrite N.div2_spec, N.shiftr_spec by lia. destruct (Nat.eq_dec i 31) as [->|NE].
    - rewrite (testbit_small c) by exact B. symmetry. apply N.testbit_even_0.
    - replace (N.of_nat i + 1) with (N.of_nat (S i)) by lia. rewrite (M (S i)) by lia.
      replace (N.of_nat (31 - i)) with (N.succ (N.of_nat (31 - S i))) by lia. now rewrite N.testbit_even_succ by lia. }
  unfold crc_bit, shift_reg. rewrite <- O. destruct (N.odd c); [|exact D].
  rewrite !N.lxor_spec, D, poly_mirrors by exact L. reflexivity.
Qed.
Lemma mirrors_bit c r b : mirrors c r -> mirrors (N.lxor c (N.b2n b)) (N.lxor r (N.b2n b * 2 ^ 31)).
Proof.
  intros (B & M). split; [apply lxor_bound32; [exact B|eapply N.lt_trans; [apply b2n_lt|reflexivity]]|]. intros i L.
  rewrite !N.lxor_spec, M by exact L. f_equal. destruct b; cbn [N.b2n]; [|now rewrite N.mul_0_l, !N.bits_0].
  rewrite N.mul_1_l. destruct i as [|i]; [reflexivity|].
  rewrite N.pow2_bits_false by lia. change 1 with (2 ^ 0). apply N.pow2_bits_false. lia.
Qed.

Lemma fold_left_map {A B C} (f : A -> B -> A) (g : C -> B) l : forall a, fold_left f (map g l) a = fold_left (fun a c => f a (g c)) l a.
Proof. induction l as [|c l IH]; intros a; [reflexivity|]. cbn [map fold_left]. apply IH. Qed.
Lemma fold_left_ext {A B} (f g : A -> B -> A) l : (forall a b, In b l -> f a b = g a b) -> forall a, fold_left f l a = fold_left g l a.
Proof. induction l as [|b l IH]; intros H a; [reflexivity|]. cbn [fold_left]. rewrite H by now left. apply IH. intros; apply H; now right. Qed.
(** a message is read bit by bit, the least significant of each byte first *)
Lemma crc_bits n : forall c b, b < 2 ^ N.of_nat n ->
  Nat.iter n crc_bit (N.lxor c b) = fold_left (fun c i => crc_bit (N.lxor c (N.b2n (N.testbit b (N.of_nat i))))) (seq 0 n) c.
Proof.
  induction n as [|n IH]; intros c b B.
  - change (2 ^ N.of_nat 0) with 1 in B. assert (b = 0) as -> by lia. apply N.lxor_0_r.
  - assert (I : Nat.iter (S n) crc_bit (N.lxor c b) = Nat.iter n crc_bit (crc_bit (N.lxor c b))).
    { replace (S n) with (n + 1)%nat by lia. rewrite iter_add. reflexivity. }
    rewrite I. cbn [seq fold_left].
    rewrite <- seq_shift, fold_left_map.
    assert (H : crc_bit (N.lxor c b) = N.lxor (crc_bit (N.lxor c (N.b2n (N.testbit b 0)))) (N.div2 b)).
    { rewrite (parity b) at 1. rewrite N.bit0_odd, N.add_comm.
      change 2 with (2 ^ 1) at 1. rewrite add_lxor_disjoint by apply b2n_lt. rewrite <- N.lxor_assoc, crc_bit_lxor. f_equal. apply crc_bit_double. }
    rewrite H, IH.
    + change (N.of_nat 0) with 0. apply fold_left_ext. intros a i _. do 3 f_equal. rewrite N.div2_spec, N.shiftr_spec by lia. f_equal. lia.
    + rewrite N.div2_div. apply N.div_lt_upper_bound; [lia|]. replace (N.of_nat (S n)) with (N.succ (N.of_nat n)) in B by lia.
      rewrite N.pow_succ_r in B by lia. lia.
Qed.
Lemma crc_bytes_bits bs : wf_bytes bs -> forall c,
  crc_bytes c bs = fold_left (fun c i => crc_bit (N.lxor c (N.b2n (frame_bit bs i)))) (seq 0 (8 * length bs)) c.
Proof.
  intros W c. rewrite crc_bytes_val, crc_bits by (try exact W;
    replace (2 ^ N.of_nat (8 * length bs)) with (256 ^ N.of_nat (length bs)) by
      (change 256 with (2 ^ 8); rewrite <- N.pow_mul_r; f_equal; lia); now apply le_val_bound).
  apply fold_left_ext. intros a i _. now rewrite le_val_testbit by exact W.
Qed.

Lemma register_fold f n : forall c r a k m, r < 2 ^ 32 -> mirrors c r -> remainder (N.lxor (2 ^ k * a) (2 ^ 32 * m)) r ->
  exists r', mirrors (fold_left (fun c i => crc_bit (N.lxor c (N.b2n (f i)))) n c) r' /\
    remainder (N.lxor (2 ^ (k + N.of_nat (length n)) * a) (2 ^ 32 * fold_left (fun m (i : nat) => 2 * m + N.b2n (f i)) n m)) r'.
Proof.
  induction n as [|i n IH]; intros c r a k m B M R.
  - exists r. cbn [length fold_left]. change (N.of_nat 0) with 0. now rewrite N.add_0_r.
  - cbn [fold_left length]. pose proof (mirrors_bit c r (f i) M) as M1.
    assert (B1 : N.lxor r (N.b2n (f i) * 2 ^ 31) < 2 ^ 32) by (apply lxor_bound32; [exact B|destruct (f i); reflexivity]).
    pose proof (mirrors_shift _ _ B1 M1) as M2.
    destruct (IH _ _ a (k + 1) (2 * m + N.b2n (f i)) (shift_bound _ B1) M2) as (r' & M' & R').
    + replace (N.lxor (2 ^ (k + 1) * a) (2 ^ 32 * (2 * m + N.b2n (f i))))
        with (2 * N.lxor (N.lxor (2 ^ k * a) (2 ^ 32 * m)) (N.b2n (f i) * 2 ^ 31)).
      * apply remainder_shift, remainder_lxor; [exact R|]. apply remainder_small. destruct (f i); reflexivity.
      * rewrite !mul2_lxor, N.lxor_assoc. f_equal.
        -- rewrite N.add_1_r, N.pow_succ_r by lia. apply N.mul_assoc.
        -- replace (2 * (N.b2n (f i) * 2 ^ 31)) with (N.b2n (f i) * 2 ^ 32) by (change (2 ^ 32) with (2 * 2 ^ 31); lia).
           rewrite N.lxor_comm. rewrite N.mul_add_distr_l. rewrite (N.mul_comm (N.b2n (f i))).
           rewrite (N.add_comm (2 ^ 32 * (2 * m))).
           replace (2 ^ 32 * (2 * m)) with (2 ^ 33 * m) by (change (2 ^ 33) with (2 ^ 32 * 2); now rewrite N.mul_assoc).
           replace (2 * (2 ^ 32 * m)) with (2 ^ 33 * m) by (change (2 ^ 33) with (2 * 2 ^ 32); now rewrite N.mul_assoc).
           symmetry. apply add_lxor_disjoint. destruct (f i); reflexivity.
    + exists r'. split; [exact M'|]. replace (k + N.of_nat (S (length n))) with (k + 1 + N.of_nat (length n)) by lia. exact R'.
Qed.

Lemma crc32_is_fcs bs : wf_bytes bs -> is_fcs bs (le_bytes 4 (crc32 bs)).
Proof.
  intros W. split; [apply le_bytes_wf|]. split; [apply le_bytes_length|].
  destruct (remainder_exists (2 ^ N.of_nat (8 * length bs) * (2 ^ 32 - 1))) as (r1 & R1).
  destruct (remainder_exists (2 ^ 32 * message bs)) as (r2 & R2). exists r1, r2. split; [exact R1|]. split; [exact R2|]. intros i L.
  destruct (register_fold (frame_bit bs) (seq 0 (8 * length bs)) crc_ones crc_ones (2 ^ 32 - 1) 0 0) as (r & (B & M) & R).
  - reflexivity.
  - split; [reflexivity|]. intros j J. change crc_ones with (N.ones 32). rewrite !N.ones_spec_low by lia. reflexivity.
  - apply (remainder_small crc_ones). reflexivity.
  - rewrite seq_length, N.add_0_l in R. fold (message bs) in R.
    pose proof (remainder_unique _ _ _ R (remainder_lxor _ _ _ _ R1 R2)) as ->.
    rewrite <- crc_bytes_bits in B, M by exact W.
    rewrite <- le_val_testbit by apply le_bytes_wf. rewrite le_val_bytes.
    rewrite N.mod_small by (apply crc32_bound; exact W). unfold crc32. rewrite N.lxor_spec, M, N.lxor_spec by exact L.
    change crc_ones with (N.ones 32). rewrite N.ones_spec_low by lia. apply xorb_true_r.
Qed.
Lemma fcs_unique bs f g : is_fcs bs f -> is_fcs bs g -> f = g.
Proof.
  intros (Wf & Lf & r1 & r2 & R1 & R2 & F) (Wg & Lg & s1 & s2 & S1 & S2 & G).
  pose proof (remainder_unique _ _ _ R1 S1) as <-. pose proof (remainder_unique _ _ _ R2 S2) as <-.
  assert (X : le_val f = le_val g).
  { apply N.bits_inj. intros i. destruct (N.lt_ge_cases i 32) as [L|L].
    - rewrite <- (N2Nat.id i). rewrite !le_val_testbit by assumption. rewrite F, G by lia. reflexivity.
    - rewrite !testbit_small; [reflexivity| |].
      + eapply N.lt_le_trans; [apply le_val_bound; exact Wg|]. rewrite Lg. change (256 ^ N.of_nat 4) with (2 ^ 32). apply N.pow_le_mono_r; lia.
      + eapply N.lt_le_trans; [apply le_val_bound; exact Wf|]. rewrite Lf. change (256 ^ N.of_nat 4) with (2 ^ 32). apply N.pow_le_mono_r; lia. }
  rewrite <- (le_bytes_val f), <- (le_bytes_val g) by assumption. rewrite X, Lf, Lg. reflexivity.
Qed.
Lemma fcs_standard bs fcs : wf_bytes bs -> (is_fcs bs fcs <-> fcs = le_bytes 4 (crc32 bs)).
Proof.
  intros W. split; [|intros ->; now apply crc32_is_fcs]. intros F. apply (fcs_unique bs); [exact F|now apply crc32_is_fcs].
Qed.
Lemma accepted_fcs {cfg : Cfg} bs : wf_bytes bs -> forall body,
  strip_and_validate_fcs bs = Ok body <-> exists fcs, bs = body ++ fcs /\ is_fcs body fcs.
Proof.
  intros W body. destruct (strip_fcs_spec bs W) as [S _]. rewrite S. split.
  - intros ->. apply wf_bytes_app in W as [W _]. eexists. split; [reflexivity|]. now apply crc32_is_fcs.
  - intros (fcs & -> & F). apply wf_bytes_app in W as [W _]. f_equal. now apply fcs_standard.
Qed.
Lemma one_remainder a : exists r, remainder a r /\ forall r', remainder a r' -> r' = r.
Proof. destruct (remainder_exists a) as (r & R). exists r. split; [exact R|]. intros r' R'. now apply (remainder_unique a). Qed.
