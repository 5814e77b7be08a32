(** Exact outcomes: rates of any size, VHT MCS maps from lists of any length, received HT operation elements and cipher headers. *)
From Verif Require Import Base SpecBase BaseFacts Bits Layouts BitsFacts Enums EnumsFacts Elements SpecElements ElementsFacts
  ElementTypes SpecElementTypes ElementTypesFacts ElementTypesFacts2 ElementTypesFacts3.

(** ** Rates *)
Section Facts.
Context {cfg : Cfg}.
Lemma rate_below (r : N) b : (r < 64000)%N -> exists x,
  from_rate_in_kbps r b = Ok x /\ (rate_in_kbps x <= r < rate_in_kbps x + 500)%N /\ lgetb EncodedRate_layout "is_b" x = b.
Proof.
  intros H. assert (K : (r / 500 < 128)%N) by (apply N.div_lt_upper_bound; lia).
  destruct (rate_round_trip (r / 500) b K) as (x & E & _ & V & B). exists x.
  unfold from_rate_in_kbps in *. rewrite N.div_mul in E by discriminate. split; [exact E|]. rewrite V. split; [|exact B].
  pose proof (N.div_mod r 500 ltac:(discriminate)). pose proof (N.mod_lt r 500 ltac:(discriminate)). lia.
Qed.
Lemma bf_set_low (v : N) : bf_set 0 7 v 0 = bf_set 0 7 (v mod 128) 0.
Proof.
  unfold bf_set. f_equal. f_equal. change (N.ones 7) with (N.ones 7). rewrite !N.land_ones. change (2 ^ 7)%N with 128%N.
  now rewrite N.mod_mod.
Qed.
Lemma rate_any (r : N) b : let k := (r / 500 mod 256)%N in
  from_rate_in_kbps r b = if (128 <=? k)%N && overflow_checks then Panic else Ok (k mod 128 + 128 * N.b2n b)%N.
Proof.
  cbv zeta. unfold from_rate_in_kbps. set (k := (r / 500 mod 256)%N).
  unfold lwith. change (lpos EncodedRate_layout "rate") with (Some (0, 7)%N). cbv beta iota. change (N.ones 7) with 127%N.
  assert (E : (127 <? k)%N = (128 <=? k)%N) by (destruct (N.ltb_spec 127 k), (N.leb_spec 128 k); lia).
  rewrite E, andb_comm. destruct ((128 <=? k)%N && overflow_checks); [reflexivity|]. cbn [rbind]. f_equal.
  rewrite bf_set_low. apply encoded_rate_bits. apply N.mod_lt. discriminate.
Qed.

(** ** VHT MCS maps *)
Lemma shl_release x n : overflow_checks = false -> shl_u8 x n = Ok (N.shiftl x (n mod 8) mod 256)%N.
Proof. intros O. unfold shl_u8. now rewrite O. Qed.
Definition map_of (f : nat -> N) : N :=
  fold_left (fun acc i => N.lor acc (N.shiftl (f i) (N.of_nat (2 * (i mod 4))) mod 256)) (seq 0 8) 0%N.
Lemma vht_release_map l : overflow_checks = false -> from_vht_mcs_iter l = Ok (map_of (entry_bits l)).
Proof.
  intros O. unfold from_vht_mcs_iter, map_of.
  assert (Z : forall s, (N.shiftl 0 s mod 256 = 0)%N) by (intros s; now rewrite N.shiftl_0_l).
  destruct l as [|a [|b [|c [|d [|e [|f [|g [|h l]]]]]]]]; cbn [firstn vht_mcs_fold]; rewrite ?(shl_release _ _ O); cbn [rbind];
    unfold entry_bits; cbn [seq fold_left nth_error]; rewrite ?Z, ?N.lor_0_r; reflexivity.
Qed.
Lemma testbit_quarter m k j : N.testbit (m / 4 ^ k mod 4) j = (j <? 2)%N && N.testbit m (j + 2 * k).
Proof.
  change 4%N with (2 ^ 2)%N at 2. destruct (N.ltb_spec j 2).
  - rewrite N.mod_pow2_bits_low by assumption. change 4%N with (2 ^ 2)%N. rewrite <- N.pow_mul_r, N.div_pow2_bits. reflexivity.
  - now rewrite N.mod_pow2_bits_high by assumption.
Qed.
Lemma testbit_small v j : (v < 4)%N -> (2 <= j)%N -> N.testbit v j = false.
Proof.
  intros V J. destruct (N.eq_dec v 0) as [->|NZ]; [apply N.bits_0|]. apply N.bits_above_log2.
  enough (N.log2 v < 2)%N by lia. apply N.log2_lt_pow2; [lia|exact V].
Qed.
Lemma testbit_shifted v s p : N.testbit (N.shiftl v s mod 256) p = (p <? 8)%N && (s <=? p)%N && N.testbit v (p - s).
Proof.
  change 256%N with (2 ^ 8)%N. destruct (N.ltb_spec p 8).
  - rewrite N.mod_pow2_bits_low by assumption. destruct (N.leb_spec s p); [now rewrite N.shiftl_spec_high' by assumption|now rewrite N.shiftl_spec_low].
  - now rewrite N.mod_pow2_bits_high by assumption.
Qed.
Lemma map_of_spec f : (forall i, (f i < 4)%N) -> forall n, 1 <= n <= 8 ->
  spec_vht_mcs (map_of f) n = if n <=? 4 then N.lor (f (n - 1)) (f (n + 3)) else 0%N.
Proof.
  intros F n Hn. unfold spec_vht_mcs. apply N.bits_inj. intros j. rewrite testbit_quarter.
  assert (T : forall i q, (2 <= q)%N -> N.testbit (f i) q = false) by (intros; now apply testbit_small).
  unfold map_of. cbn [seq fold_left]. rewrite !N.lor_spec, N.bits_0, !testbit_shifted.
  assert (N : n = 1 \/ n = 2 \/ n = 3 \/ n = 4 \/ n = 5 \/ n = 6 \/ n = 7 \/ n = 8) by lia. clear Hn.
  destruct (N.ltb_spec j 2) as [J|J].
  - assert (C : j = 0%N \/ j = 1%N) by lia. clear J.
    destruct C; subst j; repeat (destruct N as [N|N]; [subst n|]); try subst n; cbn [Nat.leb];
    rewrite ?N.lor_spec; cbn -[N.testbit]; rewrite ?(T _ 2%N), ?(T _ 3%N), ?(T _ 4%N), ?(T _ 5%N), ?(T _ 6%N), ?(T _ 7%N), ?N.bits_0 by lia;
    rewrite ?orb_false_r, ?orb_false_l; reflexivity.
  - cbn [andb]. destruct (n <=? 4); [now rewrite N.lor_spec, !T by assumption|symmetry; apply N.bits_0].
Qed.
Lemma entry_bits_small l : Forall vht_canonical l -> forall i, (entry_bits l i < 4)%N.
Proof.
  intros F i. unfold entry_bits. destruct (nth_error l i) eqn:E; [|lia]. apply nth_error_In in E. rewrite Forall_forall in F. now apply F.
Qed.
(** exactly what release builds make of a list of any length *)
Lemma vht_release_exact l : overflow_checks = false -> Forall vht_canonical l -> exists m, from_vht_mcs_iter l = Ok m /\
  forall n, 1 <= n <= 8 -> spec_vht_mcs m n = if n <=? 4 then N.lor (entry_bits l (n - 1)) (entry_bits l (n + 3)) else 0%N.
Proof. intros O F. eexists. split; [now apply vht_release_map|]. intros n Hn. apply map_of_spec; [|exact Hn]. now apply entry_bits_small. Qed.

(** ** HT operation *)
Lemma rd_ht_op_exact bs : 20 <= length bs ->
  rd_ht_op bs = Ok (mkHTOp (hd 0%N bs) (le_val (firstn 5 (skipn 1 bs))) (mkMCS (firstn 10 (skipn 6 bs)) (le_val (firstn 4 (skipn 16 bs)))), 22).
Proof.
  intros H. do 20 (destruct bs as [|? bs]; [cbn in H; lia|]). clear H.
  unfold rd_ht_op, rd_mcs_set, gread, end_bad. destruct cfg as [[] ? ?]; reflexivity.
Qed.
Lemma rd_ht_op_short bs : length bs < 20 -> exists e, rd_ht_op bs = Err e.
Proof.
  intros H. destruct cfg as [s l o].
  do 20 (destruct bs as [|? bs]; [destruct s; (eexists; reflexivity)|]). cbn in H. lia.
Qed.
Lemma rd_ht_op_any bs :
  if 20 <=? length bs
  then rd_ht_op bs = Ok (mkHTOp (hd 0%N bs) (le_val (firstn 5 (skipn 1 bs)))
         (mkMCS (firstn 10 (skipn 6 bs)) (le_val (firstn 4 (skipn 16 bs)))), 22)
  else exists e, rd_ht_op bs = Err e.
Proof. destruct (Nat.leb_spec 20 (length bs)); [now apply rd_ht_op_exact|now apply rd_ht_op_short]. Qed.
End Facts.
