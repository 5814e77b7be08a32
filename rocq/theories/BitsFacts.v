(** Proofs about bit fields. *)
From Verif Require Import Base BaseFacts Bits Layouts.
Local Open Scope N_scope.

Lemma ones_spec w k : N.testbit (N.ones w) k = (k <? w).
Proof.
  destruct (N.ltb_spec k w) as [L|L]; [now apply N.ones_spec_low|now apply N.ones_spec_high].
Qed.
Lemma bf_get_bit o w x k : N.testbit (bf_get o w x) k = (k <? w) && N.testbit x (k + o).
Proof.
  unfold bf_get. rewrite N.land_spec, N.shiftr_spec', ones_spec. apply andb_comm.
Qed.
Lemma bf_set_bit o w v x k :
  N.testbit (bf_set o w v x) k
  = if (o <=? k) && (k <? o + w) then N.testbit v (k - o) else N.testbit x k.
Proof.
  unfold bf_set. rewrite N.lor_spec, N.ldiff_spec.
  destruct (N.leb_spec o k) as [L|L].
  - rewrite !N.shiftl_spec_high' by exact L. rewrite N.land_spec, ones_spec.
    destruct (N.ltb_spec (k - o) w), (N.ltb_spec k (o + w)); try lia; cbn [andb negb].
    + rewrite andb_false_r, andb_true_r. reflexivity.
    + rewrite andb_true_r, andb_false_r. apply orb_false_r.
  - rewrite !N.shiftl_spec_low by exact L. cbn [andb negb]. rewrite andb_true_r. apply orb_false_r.
Qed.
Lemma bf_get_arith o w x : bf_get o w x = (x / 2 ^ o) mod 2 ^ w.
Proof. unfold bf_get. rewrite N.land_ones, N.shiftr_div_pow2. reflexivity. Qed.
Lemma bf_get_bound o w x : bf_get o w x < 2 ^ w.
Proof. rewrite bf_get_arith. apply N.mod_lt, N.pow_nonzero. lia. Qed.
Lemma bf_get_set o w v x : bf_get o w (bf_set o w v x) = v mod 2 ^ w.
Proof.
  rewrite <- N.land_ones. apply N.bits_inj. intros k. rewrite bf_get_bit, bf_set_bit, N.land_spec, ones_spec.
  destruct (N.ltb_spec k w) as [L|L]; cbn [andb]; [|now rewrite andb_false_r].
  rewrite andb_true_r. destruct (N.leb_spec o (k + o)), (N.ltb_spec (k + o) (o + w)); try lia.
  cbn [andb]. now rewrite N.add_sub.
Qed.
Lemma bf_get_set_small o w v x : v < 2 ^ w -> bf_get o w (bf_set o w v x) = v.
Proof. intros H. rewrite bf_get_set. now apply N.mod_small. Qed.
Lemma bf_get_set_other o w o' w' v x : o + w <= o' \/ o' + w' <= o ->
  bf_get o' w' (bf_set o w v x) = bf_get o' w' x.
Proof.
  intros D. apply N.bits_inj. intros k. rewrite !bf_get_bit, bf_set_bit.
  destruct (N.ltb_spec k w') as [L|L]; cbn [andb]; [|reflexivity].
  destruct (N.leb_spec o (k + o')), (N.ltb_spec (k + o') (o + w)); try lia; reflexivity.
Qed.
Lemma bf_set_get o w x : bf_set o w (bf_get o w x) x = x.
Proof.
  apply N.bits_inj. intros k. rewrite bf_set_bit, bf_get_bit.
  destruct (N.leb_spec o k), (N.ltb_spec k (o + w)); cbn [andb]; try reflexivity.
  destruct (N.ltb_spec (k - o) w); [|lia]. cbn [andb]. f_equal. lia.
Qed.
Lemma bits_small x W : (forall k, W <= k -> N.testbit x k = false) -> x < 2 ^ W.
Proof.
  intros H. destruct (N.eq_dec x 0) as [->|Z]; [apply N.neq_0_lt_0, N.pow_nonzero; lia|].
  apply N.log2_lt_pow2; [lia|]. destruct (N.ltb_spec (N.log2 x) W) as [L|L]; [exact L|].
  specialize (H _ L). rewrite N.bit_log2 in H by exact Z. discriminate.
Qed.
Lemma small_bits x W k : x < 2 ^ W -> W <= k -> N.testbit x k = false.
Proof.
  intros H L. destruct (N.eq_dec x 0) as [->|Z]; [apply N.bits_0|].
  apply N.bits_above_log2. apply N.log2_lt_pow2 in H; lia.
Qed.
Lemma bf_set_bound o w v x W : o + w <= W -> x < 2 ^ W -> bf_set o w v x < 2 ^ W.
Proof.
  intros L H. apply bits_small. intros k Hk. rewrite bf_set_bit.
  destruct (N.leb_spec o k), (N.ltb_spec k (o + w)); try lia; cbn [andb]; now apply (small_bits x W).
Qed.

(** ** Layouts *)
Lemma lpos_from_ge lay nm o p w : lpos_from o lay nm = Some (p, w) ->
  o <= p /\ p + w <= o + lay_width lay.
Proof.
  revert o; induction lay as [|[f v] lay IH]; intros o; cbn [lpos_from]; [discriminate|].
  unfold lay_width. cbn [map snd fold_right]. fold (lay_width lay).
  destruct (String.eqb f nm).
  - intros [= -> ->]. unfold lay_width. lia.
  - intros H. apply IH in H. unfold lay_width in *. lia.
Qed.
Lemma lpos_from_disjoint lay n1 n2 : n1 <> n2 -> forall o p1 w1 p2 w2,
  lpos_from o lay n1 = Some (p1, w1) -> lpos_from o lay n2 = Some (p2, w2) ->
  p1 + w1 <= p2 \/ p2 + w2 <= p1.
Proof.
  intros N. induction lay as [|[f v] lay IH]; intros o p1 w1 p2 w2; cbn [lpos_from]; [discriminate|].
  destruct (String.eqb_spec f n1) as [E1|E1], (String.eqb_spec f n2) as [E2|E2].
  - congruence.
  - intros [= -> ->] H. apply lpos_from_ge in H. lia.
  - intros H [= -> ->]. apply lpos_from_ge in H. lia.
  - apply IH.
Qed.

Section Layout.
Variables (lay : layout).
Lemma lget_lset n v x p w : lpos lay n = Some (p, w) -> v < 2 ^ w -> lget lay n (lset lay n v x) = v.
Proof. intros E H. unfold lget, lset. rewrite E. now apply bf_get_set_small. Qed.
Lemma lget_lset_other n m v x : n <> m -> lget lay m (lset lay n v x) = lget lay m x.
Proof.
  intros N. unfold lget, lset. destruct (lpos lay n) as [[o w]|] eqn:E; [|reflexivity].
  destruct (lpos lay m) as [[o' w']|] eqn:E'; [|reflexivity].
  apply bf_get_set_other. eapply lpos_from_disjoint; eassumption.
Qed.
Lemma lset_bound n v x W : lay_width lay = W -> x < 2 ^ W -> lset lay n v x < 2 ^ W.
Proof.
  intros EW H. unfold lset. destruct (lpos lay n) as [[o w]|] eqn:E; [|exact H].
  apply lpos_from_ge in E. apply bf_set_bound; [lia|exact H].
Qed.
Lemma lset_lget n x : lset lay n (lget lay n x) x = x.
Proof. unfold lget, lset. destruct (lpos lay n) as [[o w]|]; [apply bf_set_get|reflexivity]. Qed.
Lemma lset_keeps_bits n v x k p w : lpos lay n = Some (p, w) ->
  k < p \/ p + w <= k -> N.testbit (lset lay n v x) k = N.testbit x k.
Proof.
  intros E D. unfold lset. rewrite E, bf_set_bit.
  destruct (N.leb_spec p k), (N.ltb_spec k (p + w)); try lia; reflexivity.
Qed.
Lemma lget_bound n x p w : lpos lay n = Some (p, w) -> lget lay n x < 2 ^ w.
Proof. intros E. unfold lget. rewrite E. apply bf_get_bound. Qed.
Lemma lset_lset_comm n m u v x : n <> m -> lset lay n u (lset lay m v x) = lset lay m v (lset lay n u x).
Proof.
  intros N. unfold lset. destruct (lpos lay n) as [[o w]|] eqn:E; [|reflexivity].
  destruct (lpos lay m) as [[o' w']|] eqn:E'; [|reflexivity].
  pose proof (lpos_from_disjoint lay n m N 0 o w o' w' E E') as D.
  apply N.bits_inj. intros k. rewrite !bf_set_bit.
  destruct (N.leb_spec o k), (N.ltb_spec k (o + w)), (N.leb_spec o' k), (N.ltb_spec k (o' + w'));
    cbn [andb]; try reflexivity; lia.
Qed.
Lemma lset_lset_same n u v x : lset lay n u (lset lay n v x) = lset lay n u x.
Proof.
  unfold lset. destruct (lpos lay n) as [[o w]|] eqn:E; [|reflexivity].
  apply N.bits_inj. intros k. rewrite !bf_set_bit.
  destruct ((o <=? k) && (k <? o + w)); reflexivity.
Qed.
End Layout.
Lemma lgetb_lsetb lay n b x o : lpos lay n = Some (o, 1) -> lgetb lay n (lsetb lay n b x) = b.
Proof.
  intros E. unfold lgetb, lsetb. rewrite (lget_lset lay n _ x o 1 E); destruct b; reflexivity.
Qed.
Lemma lgetb_lset_other lay n m v x : n <> m -> lgetb lay m (lset lay n v x) = lgetb lay m x.
Proof. intros H. unfold lgetb. now rewrite lget_lset_other. Qed.
Lemma lgetb_bit lay n x o : lpos lay n = Some (o, 1) -> lgetb lay n x = N.testbit x o.
Proof.
  intros E. unfold lgetb, lget. rewrite E.
  assert (H : bf_get o 1 x = N.b2n (N.testbit x o)).
  { apply N.bits_inj. intros k. rewrite bf_get_bit. destruct (N.ltb_spec k 1) as [L|L].
    - assert (k = 0) by lia. subst. cbn [andb N.add]. rewrite N.b2n_bit0. reflexivity.
    - cbn [andb]. symmetry. apply (small_bits _ 1); [destruct (N.testbit x o); reflexivity|exact L]. }
  rewrite H. destruct (N.testbit x o); reflexivity.
Qed.

(** the bits of a word, given all fields (padding included), determine it *)
Fixpoint lay_all_eq (o : N) (lay : layout) (x y : N) : Prop :=
  match lay with
  | [] => True
  | (_, w) :: lay' => bf_get o w x = bf_get o w y /\ lay_all_eq (o + w) lay' x y
  end.
Lemma lay_ext_from lay : forall o x y k, lay_all_eq o lay x y -> o <= k -> k < o + lay_width lay ->
  N.testbit x k = N.testbit y k.
Proof.
  induction lay as [|[f w] lay IH]; intros o x y k H L U; unfold lay_width in U; cbn [map snd fold_right] in U.
  - cbn in U. lia.
  - fold (lay_width lay) in U. destruct H as [H1 H2]. destruct (N.ltb_spec k (o + w)) as [C|C].
    + apply (f_equal (fun z => N.testbit z (k - o))) in H1. rewrite !bf_get_bit in H1.
      destruct (N.ltb_spec (k - o) w); [|lia]. cbn [andb] in H1. now replace (k - o + o) with k in H1 by lia.
    + unfold lay_width in *. apply (IH (o + w)); [exact H2|exact C|lia].
Qed.
Lemma lay_ext lay x y : x < 2 ^ lay_width lay -> y < 2 ^ lay_width lay -> lay_all_eq 0 lay x y -> x = y.
Proof.
  intros Hx Hy H. apply N.bits_inj. intros k. destruct (N.ltb_spec k (lay_width lay)) as [L|L].
  - eapply lay_ext_from; [exact H|lia|lia].
  - now rewrite (small_bits x _ k Hx L), (small_bits y _ k Hy L).
Qed.
