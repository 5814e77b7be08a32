(** The floating point computation of [rate!]. *)
From Coq Require Import SpecFloat.
From Verif Require Import Base Bits Layouts ElementTypes ElementTypesFacts2 Accessors.
Open Scope Z_scope.

(** ** Rounding to nearest even *)
Definition shifted (k m : Z) (r : shr_record) : Prop := exists rem, 0 <= shr_m r /\ 0 <= rem < 2 ^ (k - 1) /\
  m = 2 ^ k * shr_m r + 2 ^ (k - 1) * Z.b2z (shr_r r) + rem /\ (shr_s r = false <-> rem = 0).
Lemma shr_step k m r : 0 < k -> shifted k m r -> shifted (k + 1) m (shr_1 r).
Proof.
  intros K (rem & M & L & E & S). destruct r as [x b s]. cbn [shr_m shr_r shr_s] in *.
  exists (2 ^ (k - 1) * Z.b2z b + rem). replace (k + 1 - 1) with k by lia.
  assert (P : 2 ^ k = 2 * 2 ^ (k - 1)) by (rewrite <- Z.pow_succ_r by lia; f_equal; lia).
  rewrite Z.pow_add_r by lia. change (2 ^ 1) with 2.
  assert (B : 0 <= Z.b2z b <= 1) by (destruct b; cbn; lia).
  assert (D : (b || s = false)%bool <-> 2 ^ (k - 1) * Z.b2z b + rem = 0).
  { rewrite Bool.orb_false_iff, S. destruct b; cbn [Z.b2z]; [split; [intros [X _]; discriminate X|lia]|split; [intros [_ X]; lia|intros X; split; [reflexivity|lia]]]. }
  assert (L' : 0 <= 2 ^ (k - 1) * Z.b2z b + rem < 2 ^ k) by nia.
  destruct x as [|[p|p|]|p]; [| | | |lia]; cbn [shr_1 shr_m shr_r shr_s Z.b2z]; (split; [lia|]); (split; [exact L'|]); (split; [|exact D]); nia.
Qed.
Lemma shr_first m : 0 <= m -> shifted 1 m (shr_1 (Build_shr_record m false false)).
Proof.
  intros M. exists 0. change (2 ^ (1 - 1)) with 1. change (2 ^ 1) with 2.
  destruct m as [|[p|p|]|p]; [| | | |lia]; cbn [shr_1 shr_m shr_r shr_s orb Z.b2z]; (split; [lia|]); (split; [lia|]); (split; [lia|]); tauto.
Qed.
Lemma iter_pos_iter {A} (f : A -> A) p : forall x, SpecFloat.iter_pos f p x = Pos.iter f x p.
Proof.
  induction p as [p IH|p IH|]; intros x; cbn [SpecFloat.iter_pos Pos.iter]; [|now rewrite !IH|reflexivity].
  rewrite !IH. now rewrite <- !Pos.iter_swap.
Qed.
Lemma shr_many p m : 0 <= m -> shifted (Z.pos p) m (SpecFloat.iter_pos shr_1 p (Build_shr_record m false false)).
Proof.
  intros M. rewrite iter_pos_iter. induction p as [|p IH] using Pos.peano_ind; [now apply shr_first|].
  rewrite Pos.iter_succ, Pos2Z.inj_succ. apply shr_step; [lia|exact IH].
Qed.
Lemma rounded k m r : 0 < k -> shifted k m r -> let q := round_nearest_even (shr_m r) (loc_of_shr_record r) in
  0 <= q /\ 2 * (2 ^ k * q - m) <= 2 ^ k /\ 2 * (m - 2 ^ k * q) <= 2 ^ k /\ forall c, c * 2 ^ k <= m -> c <= q.
Proof.
  intros K (rem & M & L & E & S). destruct r as [x b s]. cbn [shr_m shr_r shr_s loc_of_shr_record] in *.
  assert (P : 2 ^ k = 2 * 2 ^ (k - 1)) by (rewrite <- Z.pow_succ_r by lia; f_equal; lia).
  assert (H : 0 < 2 ^ (k - 1)) by lia.
  assert (Q : forall q, x <= q -> (forall c, c * 2 ^ k <= m -> c <= q)).
  { intros q Lq c C. destruct (Z.le_gt_cases c q) as [|G]; [assumption|]. assert (x + 1 <= c) by lia. destruct b; cbn [Z.b2z] in E; nia. }
  destruct b, s; cbn [Z.b2z round_nearest_even] in *.
  - assert (rem <> 0) by (intros X; apply S in X; discriminate). (split; [nia|split; [nia|split; [nia|apply Q; lia]]]).
  - assert (rem = 0) by (now apply S). destruct (Z.even x); (split; [nia|split; [nia|split; [nia|apply Q; lia]]]).
  - (split; [nia|split; [nia|split; [nia|apply Q; lia]]]).
  - assert (rem = 0) by (now apply S). (split; [nia|split; [nia|split; [nia|apply Q; lia]]]).
Qed.
(** the first half of a multiplication: the exact product [m], [2 ^ e] is rounded to a multiple of a higher power of two *)
Lemma round_first m e : 0 <= m -> let '(r, e') := shr_fexp 24 128 m e loc_Exact in
  let q := round_nearest_even (shr_m r) (loc_of_shr_record r) in exists k, 0 <= k /\ e' = e + k /\
  k = Z.max 0 (Z.max (Zdigits2 m + e - 24) (-149) - e) /\
  0 <= q /\ 2 * (2 ^ k * q - m) <= 2 ^ k /\ 2 * (m - 2 ^ k * q) <= 2 ^ k /\ forall c, c * 2 ^ k <= m -> c <= q.
Proof.
  intros M. unfold shr_fexp, shr, fexp, emin, shr_record_of_loc. change (3 - 128 - 24) with (-149).
  destruct (Z.max (Zdigits2 m + e - 24) (-149) - e) as [|p|p] eqn:D.
  - exists 0. cbn [shr_m loc_of_shr_record round_nearest_even]. change (2 ^ 0) with 1. repeat split; lia.
  - exists (Z.pos p). destruct (rounded (Z.pos p) m _ ltac:(lia) (shr_many p m M)) as (A & B & C & F). repeat split; try assumption; lia.
  - exists 0. cbn [shr_m loc_of_shr_record round_nearest_even]. change (2 ^ 0) with 1. repeat split; lia.
Qed.
Lemma digits2_size p : digits2_pos p = Pos.size p.
Proof. induction p; cbn; congruence. Qed.
Lemma digits_bounds p : 2 ^ (Zdigits2 (Z.pos p) - 1) <= Z.pos p < 2 ^ Zdigits2 (Z.pos p) /\ 1 <= Zdigits2 (Z.pos p).
Proof.
  cbn [Zdigits2]. rewrite digits2_size. pose proof (Pos.size_gt p) as G. pose proof (Pos.size_le p) as L.
  apply Pos2Z.pos_lt_pos in G. rewrite Pos2Z.inj_pow in G. apply Pos2Z.pos_le_pos in L. rewrite Pos2Z.inj_pow in L.
  split; [|lia]. split; [|exact G]. change (Z.pos p~0) with (2 * Z.pos p) in L. change (Z.pos 2) with 2 in *.
  replace (Z.pos (Pos.size p)) with (Z.succ (Z.pos (Pos.size p) - 1)) in L by lia. rewrite Z.pow_succ_r in L by lia. lia.
Qed.
(** the second half: the rounded mantissa is normalized again, keeping its value *)
Lemma round_second q e : 0 <= q <= 2 ^ 24 -> -149 <= e -> let '(r, e') := shr_fexp 24 128 q e loc_Exact in
  (shr_m r = q /\ e' = e) \/ (q = 2 ^ 24 /\ shr_m r = 2 ^ 23 /\ e' = e + 1).
Proof.
  intros Q E. unfold shr_fexp, shr, fexp, emin, shr_record_of_loc. change (3 - 128 - 24) with (-149).
  destruct (Z.eq_dec q (2 ^ 24)) as [->|N].
  - change (Zdigits2 (2 ^ 24)) with 25. replace (Z.max (25 + e - 24) (-149) - e) with 1 by lia. cbv beta iota. right. repeat split; reflexivity.
  - assert (D : Zdigits2 q <= 24).
    { destruct q as [|p|p]; [cbn; lia| |lia]. destruct (digits_bounds p) as [[L _] _]. 
      destruct (Z.le_gt_cases (Zdigits2 (Z.pos p)) 24) as [|G]; [assumption|].
      pose proof (Z.pow_le_mono_r 2 24 (Zdigits2 (Z.pos p) - 1) ltac:(lia) ltac:(lia)). lia. }
    destruct (Z.max (Zdigits2 q + e - 24) (-149) - e) as [|p|p] eqn:X; try lia; cbv beta iota; cbn [shr_m]; left; split; reflexivity.
Qed.
Lemma div_pow_2 a : 0 <= a -> (2 * a) / 2 = a.
Proof. intros. rewrite Z.mul_comm. apply Z.div_mul. lia. Qed.
(** ... and its integral part *)
Lemma round_integer q e : 0 <= q <= 2 ^ 24 -> -149 <= e <= -8 ->
  f32_as_usize (let '(r, e') := shr_fexp 24 128 q e loc_Exact in
                match shr_m r with 0 => S754_zero false | Z.pos m => if e' <=? 128 - 24 then S754_finite false m e' else S754_infinity false | Z.neg _ => S754_nan end)
  = Z.to_N (q / 2 ^ (- e)).
Proof.
  intros Q E. pose proof (round_second q e Q ltac:(lia)) as R. destruct (shr_fexp 24 128 q e loc_Exact) as [r e'].
  assert (Small : forall m f, 0 < m <= 2 ^ 24 -> f < 0 -> -150 < f -> f32_as_usize (S754_finite false (Z.to_pos m) f) = Z.to_N (m / 2 ^ (- f))).
  { intros m f M F F'. unfold f32_as_usize. rewrite (proj2 (Z.leb_gt 0 f) F). rewrite N.min_l.
    - destruct m as [|p|p]; try lia. cbn [Z.to_pos]. rewrite Z2N.inj_div by lia. rewrite Z2N.inj_pow by lia. reflexivity.
    - apply N.div_le_upper_bound; [apply N.pow_nonzero; lia|].
      apply N.le_trans with (2 ^ 24)%N; [lia|]. apply N.le_trans with (1 * (2 ^ 64 - 1))%N; [lia|]. apply N.mul_le_mono_r.
      pose proof (N.pow_nonzero 2 (Z.to_N (- f)) ltac:(lia)). lia. }
  destruct R as [[-> ->]|(-> & -> & ->)].
  - destruct q as [|p|p]; [| |lia].
    + cbn [f32_as_usize]. now rewrite Z.div_0_l by (apply Z.pow_nonzero; lia).
    + rewrite (proj2 (Z.leb_le e _)) by lia. rewrite <- Small by lia. reflexivity.
  - change (2 ^ 23) with (Z.pos 8388608). cbv iota. rewrite (proj2 (Z.leb_le (e + 1) _)) by lia.
    change (8388608)%positive with (Z.to_pos (2 ^ 23)) at 1. rewrite Small by lia. f_equal.
    replace (- e) with (Z.succ (- (e + 1))) by lia. rewrite Z.pow_succ_r by lia. change (2 ^ 24) with (2 * 2 ^ 23).
    now rewrite Z.div_mul_cancel_l by (try apply Z.pow_nonzero; lia).
Qed.

(** ** [rate!] *)
Lemma kbps m e : Z.pos m < 2 ^ 24 -> -149 <= e < 0 -> Z.pos m < 128 * 2 ^ (- (e + 1)) ->
  exists v, f32_as_usize (f32_mul (S754_finite false m e) (f32_of_N 1000)) = Z.to_N v /\ v / 500 = Z.pos m / 2 ^ (- (e + 1)).
Proof.
  intros M E H. change (f32_of_N 1000) with (S754_finite false 16384000 (-14)). unfold f32_mul, SFmul. cbn [xorb]. unfold binary_round_aux.
  rewrite Pos2Z.inj_mul. set (P := Z.pos m * 16384000). set (t := - (e + 1)) in *.
  pose proof (round_first P (e + -14) ltac:(lia)) as R. destruct (shr_fexp 24 128 P (e + -14) loc_Exact) as [r e'].
  cbv zeta in R. set (q := round_nearest_even (shr_m r) (loc_of_shr_record r)) in *.
  destruct R as (k & K0 & -> & K & Q0 & R1 & R2 & R3).
  assert (EP : P = Z.pos (m * 16384000)) by (unfold P; lia).
  destruct (digits_bounds (m * 16384000)) as [[D1 D2] D3]. rewrite <- EP in D1, D2, D3. set (d := Zdigits2 P) in *.
  assert (D48 : d <= 48).
  { destruct (Z.le_gt_cases d 48) as [|G]; [assumption|]. pose proof (Z.pow_le_mono_r 2 48 (d - 1) ltac:(lia) ltac:(lia)).
    assert (P < 2 ^ 48) by (unfold P; lia). lia. }
  assert (T : 2 ^ (15 + t) = 32768 * 2 ^ t) by (rewrite Z.pow_add_r by lia; reflexivity).
  assert (Dt : d <= 31 + t).
  { destruct (Z.le_gt_cases d (31 + t)) as [|G]; [assumption|]. pose proof (Z.pow_le_mono_r 2 (31 + t) (d - 1) ltac:(lia) ltac:(lia)) as X.
    rewrite Z.pow_add_r in X by lia. change (2 ^ 31) with 2147483648 in X. assert (0 < 2 ^ t) by (apply Z.pow_pos_nonneg; lia).
    unfold P in *. nia. }
  assert (KL : k <= 24) by lia.
  assert (E' : -149 <= e + -14 + k <= -8) by lia.
  assert (TK : 2 ^ (- (e + -14 + k)) * 2 ^ k = 32768 * 2 ^ t).
  { rewrite <- Z.pow_add_r by lia. rewrite <- T. f_equal. lia. }
  assert (PK : 0 < 2 ^ k <= 2 ^ 24) by (split; [apply Z.pow_pos_nonneg; lia|apply Z.pow_le_mono_r; lia]).
  set (s := 2 ^ (- (e + -14 + k))) in *. assert (0 < s) by (apply Z.pow_pos_nonneg; lia).
  assert (Q24 : q <= 2 ^ 24).
  { assert (2 ^ d <= 2 ^ (24 + k)) as X by (apply Z.pow_le_mono_r; lia). rewrite Z.pow_add_r in X by lia. nia. }
  exists (q / s). split; [rewrite (round_integer q (e + -14 + k)) by lia; reflexivity|].
  set (K' := Z.pos m / 2 ^ t). assert (T0 : 0 < 2 ^ t) by (apply Z.pow_pos_nonneg; lia).
  pose proof (Z.mul_div_le (Z.pos m) (2 ^ t) T0) as L1. pose proof (Z.mul_succ_div_gt (Z.pos m) (2 ^ t) T0) as L2. fold K' in L1, L2.
  assert (C1 : 500 * K' * s <= q). { apply R3. unfold P. nia. }
  assert (C2 : q < 500 * (K' + 1) * s). { unfold P in *. nia. }
  assert (V1 : 500 * K' <= q / s) by (apply Z.div_le_lower_bound; nia).
  assert (V2 : q / s < 500 * (K' + 1)) by (apply Z.div_lt_upper_bound; nia).
  symmetry. apply (Z.div_unique _ _ _ (q / s - 500 * K')); lia.
Qed.
(** valid numbers of the format *)
Lemma bounded_facts m e : bounded 24 128 m e = true -> Z.pos m < 2 ^ 24 /\ -149 <= e.
Proof.
  unfold bounded, canonical_mantissa, fexp, emin. change (3 - 128 - 24) with (-149). intros B. apply Bool.andb_true_iff in B as [B _].
  apply Zeq_bool_eq in B. destruct (digits_bounds m) as [[_ D] D3]. cbn [Zdigits2] in D, D3. split; [|lia].
  eapply Z.lt_le_trans; [exact D|]. apply Z.pow_le_mono_r; lia.
Qed.
Close Scope Z_scope.
(** every number below 64: twice the number, rounded down *)
Lemma rate_macro_all {cfg : Cfg} m e b : bounded 24 128 m e = true -> (e < 0)%Z -> (N.pos m < 128 * 2 ^ Z.to_N (- (e + 1)))%N ->
  rate_macro (S754_finite false m e) b = Ok (N.pos m / 2 ^ Z.to_N (- (e + 1)) + (if b then 128 else 0))%N.
Proof.
  intros B E H. apply bounded_facts in B as [M E'].
  assert (Hz : (Z.pos m < 128 * 2 ^ (- (e + 1)))%Z).
  { apply N2Z.inj_lt in H. rewrite N2Z.inj_mul, N2Z.inj_pow, Z2N.id in H by lia. exact H. }
  destruct (kbps m e M ltac:(lia) Hz) as (v & V & K). unfold rate_macro. rewrite V.
  assert (0 <= v)%Z by (assert (0 <= v / 500)%Z by (rewrite K; apply Z.div_pos; [lia|apply Z.pow_pos_nonneg; lia]); pose proof (Z.mul_div_le v 500 ltac:(lia)); lia).
  set (k := (N.pos m / 2 ^ Z.to_N (- (e + 1)))%N).
  assert (Kn : (Z.to_N v / 500 = k)%N).
  { change 500%N with (Z.to_N 500). rewrite <- Z2N.inj_div by lia. rewrite K. unfold k. rewrite Z2N.inj_div by (try apply Z.pow_nonneg; lia).
    rewrite Z2N.inj_pow by lia. reflexivity. }
  assert (k < 128)%N as L by (apply N.div_lt_upper_bound; [apply N.pow_nonzero; lia|lia]).
  destruct (rate_round_trip k b L) as (r & R1 & R2 & _). 
  replace (from_rate_in_kbps (Z.to_N v) b) with (from_rate_in_kbps (k * 500) b).
  - rewrite R1, R2. f_equal. destruct b; cbn [N.b2n]; lia.
  - unfold from_rate_in_kbps. rewrite N.div_mul by lia. now rewrite Kn.
Qed.
