(** Proofs about the traffic indication map. *)
From Coq Require Import Sorted.
From Verif Require Import Base BaseFacts SpecBase Bits Layouts BitsFacts Common CommonFacts Elements SpecElements ElementsFacts
  ElementTypes SpecElementTypes ElementTypesFacts Tim SpecTim.

(** ** the control byte *)
Section Control.
Context {cfg : Cfg}.
Lemma tbc_n1_spec c : (c < 256)%N -> N.to_nat (tbc_n1 c) = spec_n1 c.
Proof.
  intros H. unfold tbc_n1, spec_n1, lget.
  change (lpos TIMBitmapControl_layout "bitmap_offset") with (Some (1, 7)%N). cbv beta iota.
  rewrite bf_get_arith. change (2 ^ 1)%N with 2%N. change (2 ^ 7)%N with 128%N.
  rewrite (N.mod_small (c / 2) 128) by lia. lia.
Qed.
Lemma spec_n1_bound c : (c < 256)%N -> spec_n1 c <= 254.
Proof. unfold spec_n1. lia. Qed.
Lemma tbc_traffic_spec c : tbc_traffic c = spec_group c.
Proof. unfold tbc_traffic, spec_group. rewrite (lgetb_bit _ _ _ 0%N) by reflexivity. reflexivity. Qed.
Definition control_of (g : bool) (n : nat) : N := (N.b2n g + 2 * N.of_nat (n / 2))%N.
Lemma tbc_with_n1_spec g n : n < 256 ->
  tbc_with_n1 (N.of_nat n mod 256) (lsetb TIMBitmapControl_layout "traffic_indicator" g 0) = Ok (control_of g n).
Proof.
  intros H. rewrite N.mod_small by lia. unfold tbc_with_n1, lwith.
  change (lpos TIMBitmapControl_layout "bitmap_offset") with (Some (1, 7)%N). cbv beta iota.
  replace (N.ones 7 <? N.of_nat n / 2)%N with false by (symmetry; apply N.ltb_ge; change (N.ones 7) with 127%N; lia).
  rewrite andb_false_r. f_equal. unfold control_of.
  assert (E : forallb (fun n => (bf_set 1 7 (N.of_nat n / 2) (lsetb TIMBitmapControl_layout "traffic_indicator" g 0)
     =? N.b2n g + 2 * N.of_nat (n / 2)))%N (seq 0 256) = true) by (destruct g; vm_compute; reflexivity).
  rewrite forallb_forall in E. apply N.eqb_eq, E, in_seq. lia.
Qed.
Lemma control_of_small g n : n < 256 -> (control_of g n < 256)%N.
Proof. unfold control_of. destruct g; cbn [N.b2n]; lia. Qed.
Lemma control_of_n1 g n : spec_n1 (control_of g n) = 2 * (n / 2).
Proof. unfold spec_n1, control_of. destruct g; cbn [N.b2n]; lia. Qed.
Lemma control_of_group g n : spec_group (control_of g n) = g.
Proof.
  unfold spec_group, control_of. rewrite N.bit0_odd, N.odd_add, N.odd_mul.
  destruct g; reflexivity.
Qed.
Lemma land_even n : n < 256 -> N.to_nat (N.land (N.of_nat n) 0xfe) = 2 * (n / 2).
Proof.
  intros H.
  assert (E : forallb (fun n => N.to_nat (N.land (N.of_nat n) 0xfe) =? 2 * (n / 2)) (seq 0 256) = true)
    by (vm_compute; reflexivity).
  rewrite forallb_forall in E. apply Nat.eqb_eq, E, in_seq. lia.
Qed.
End Control.

(** ** iterating *)
Section Iter.
Context {cfg : Cfg}.
Lemma filter_map_res_ok {A B} (f : A -> Res serr (option B)) (g : A -> option B) l :
  (forall a, In a l -> f a = Ok (g a)) -> filter_map_res f l = Ok (somes (map g l)).
Proof.
  induction l as [|a l IH]; intros H; [reflexivity|].
  cbn [filter_map_res map somes]. rewrite (H a) by (left; reflexivity). cbn [rbind].
  rewrite IH by (intros; apply H; now right). cbn [rbind]. now destruct (g a).
Qed.
Lemma filter_map_res_panic {A B} (f : A -> Res serr (option B)) l a :
  (forall x, In x l -> (exists y, f x = Ok y) \/ f x = Panic) -> In a l -> f a = Panic -> filter_map_res f l = Panic.
Proof.
  induction l as [|b l IH]; intros H I P; [destruct I|]. cbn [filter_map_res].
  destruct (H b (or_introl eq_refl)) as [[y E]|E]; rewrite E; [|reflexivity]. cbn [rbind].
  destruct I as [->|I]; [congruence|]. rewrite IH; auto. intros; apply H; now right.
Qed.
Lemma aid_checked_number v : (v < 16384)%N ->
  aid_new_checked v = if ((1 <=? v) && (v <=? 2007))%N then Some (49152 + v)%N else None.
Proof.
  intros H. unfold aid_new_checked. rewrite aid_mask, N.mod_small by assumption.
  destruct ((1 <=? v) && (v <=? 2007))%N; [|reflexivity]. now rewrite aid_set.
Qed.
Lemma aid_number v : (v < 16384)%N -> aid_aid (49152 + v)%N = v.
Proof.
  intros H. rewrite aid_get. replace (49152 + v)%N with (v + 3 * 16384)%N by lia.
  rewrite N.mod_add by discriminate. now apply N.mod_small.
Qed.

(** the association IDs found in [bs] from bit [s] on, with numbers starting at [base] *)
Definition found (base : nat) (bs : bytes) (k : nat) : option AssociationID :=
  if N.testbit (nth (k / 8) bs 0%N) (N.of_nat (k mod 8))
  then aid_new_checked (N.of_nat (base + k)) else None.
Lemma found_spec base bs m : forall s, base + s + m <= 8 * 2048 -> 1 <= base + s ->
  let l := numbers (somes (map (found base bs) (seq s m))) in
  StronglySorted lt l /\
  forall a, In a l <-> base + s <= a < base + s + m /\ a <= 2007 /\
                       N.testbit (nth ((a - base) / 8) bs 0%N) (N.of_nat ((a - base) mod 8)) = true.
Proof.
  induction m as [|m IH]; intros s L P; cbn [seq map somes numbers].
  - split; [constructor|]. intros a. split; [intros []|lia].
  - destruct (IH (S s)) as [IHs IHi]; [lia|lia|].
    set (l := numbers (somes (map (found base bs) (seq (S s) m)))) in *.
    assert (E : numbers (somes (found base bs s :: map (found base bs) (seq (S s) m)))
       = if N.testbit (nth (s / 8) bs 0%N) (N.of_nat (s mod 8)) && (base + s <=? 2007) then (base + s) :: l else l).
    { unfold found at 1. destruct (N.testbit _ _); [|reflexivity]. cbn [andb].
      rewrite aid_checked_number by lia.
      replace ((1 <=? N.of_nat (base + s)) && (N.of_nat (base + s) <=? 2007))%N with (base + s <=? 2007) by lia.
      destruct (Nat.leb_spec (base + s) 2007); [|reflexivity].
      unfold l, numbers. cbn [somes map]. f_equal. rewrite aid_number by lia. lia. }
    cbn [somes map] in E. cbv zeta. unfold numbers in E at 1. rewrite E. clear E.
    destruct (N.testbit (nth (s / 8) bs 0%N) (N.of_nat (s mod 8))) eqn:T;
      destruct (Nat.leb_spec (base + s) 2007) as [B|B]; cbn [andb].
    + split.
      * constructor; [assumption|]. apply Forall_forall. intros a I. apply IHi in I. lia.
      * intros a. cbn [In]. rewrite IHi. split.
        -- intros [<-|I]; [|intuition lia]. split; [lia|]. split; [lia|].
           replace (base + s - base) with s by lia. assumption.
        -- intros (I & Q & R). destruct (Nat.eq_dec (base + s) a); [now left|right]. split; [lia|now split].
    + split; [assumption|]. intros a. rewrite IHi. intuition lia.
    + split; [assumption|]. intros a. rewrite IHi. split; [intuition lia|]. intros (I & Q & R). split; [|now split].
      destruct (Nat.eq_dec (base + s) a) as [<-|]; [|lia].
      replace (base + s - base) with s in R by lia. congruence.
    + split; [assumption|]. intros a. rewrite IHi. split; [intuition lia|]. intros (I & Q & R). split; [|now split].
      destruct (Nat.eq_dec (base + s) a) as [<-|]; [|lia]. lia.
Qed.

Lemma aid_iter_eq t b bs : tb_bitmap t = Some b -> bm_bytes b = Ok bs -> (tb_control t < 256)%N ->
  spec_n1 (tb_control t) + length bs <= 2048 ->
  tb_aid_iter t = Ok (Some (somes (map (found (8 * spec_n1 (tb_control t)) bs) (seq 1 (length bs * 8 - 1))))).
Proof.
  intros B D C L. unfold tb_aid_iter. rewrite B, D. cbn [rbind].
  rewrite (filter_map_res_ok _ (found (8 * spec_n1 (tb_control t)) bs)); [reflexivity|].
  intros k K. apply in_seq in K. unfold found.
  destruct (N.testbit _ _); [|reflexivity].
  assert (E : tbc_n1 (tb_control t) = N.of_nat (spec_n1 (tb_control t))) by (rewrite <- tbc_n1_spec by assumption; lia).
  rewrite E. rewrite (N.mod_small (N.of_nat k) 65536) by lia. cbv zeta.
  replace (65535 <? _)%N with false by (symmetry; apply N.ltb_ge; lia). rewrite andb_false_r.
  do 2 f_equal. rewrite N.mod_small by lia. lia.
Qed.
(** what the iterator reports: the indicated association IDs without the first bit of the bitmap *)
Lemma aid_iter_reports t b bs : tb_bitmap t = Some b -> bm_bytes b = Ok bs -> (tb_control t < 256)%N ->
  spec_n1 (tb_control t) + length bs <= 2048 ->
  reports t (fun a => indicates (tb_control t) bs a /\ a <> 8 * spec_n1 (tb_control t)).
Proof.
  intros B D C L. eexists. split; [exact (aid_iter_eq t b bs B D C L)|].
  destruct (found_spec (8 * spec_n1 (tb_control t)) bs (length bs * 8 - 1) 1) as [S I].
  { pose proof (spec_n1_bound _ C). lia. } { lia. }
  split; [exact S|]. intros a. rewrite I. clear I S. unfold indicates, virtual_bit.
  set (n1 := spec_n1 (tb_control t)) in *.
  split.
  - intros (H & Q & R). split; [|lia]. split; [lia|]. rewrite andb_true_iff. split; [lia|].
    replace (a / 8 - n1) with ((a - 8 * n1) / 8) by lia. replace (a mod 8) with ((a - 8 * n1) mod 8) by lia. assumption.
  - intros ((H & V) & Q). rewrite andb_true_iff in V. destruct V as [V T]. apply Nat.leb_le in V.
    assert (a / 8 - n1 < length bs).
    { destruct (Nat.lt_ge_cases (a / 8 - n1) (length bs)); [assumption|].
      rewrite nth_overflow in T by assumption. now rewrite N.bits_0 in T. }
    split; [lia|]. split; [lia|].
    replace ((a - 8 * n1) / 8) with (a / 8 - n1) by lia. replace ((a - 8 * n1) mod 8) with (a mod 8) by lia. assumption.
Qed.
Lemma reports_ext t P Q : (forall a, P a <-> Q a) -> reports t P -> reports t Q.
Proof.
  intros E (l & I & S & H). exists l. split; [assumption|]. split; [assumption|].
  intros a. now rewrite H.
Qed.
Lemma reports_func t P Q : reports t P -> reports t Q -> forall a, P a <-> Q a.
Proof.
  intros (l & I & S & H) (l' & I' & S' & H') a. rewrite I in I'. injection I' as <-. now rewrite <- H, H'.
Qed.
End Iter.

(** ** building the bitmap *)
Section Build.
Context {cfg : Cfg}.
Definition array_bit (array : bytes) (k : nat) : bool := N.testbit (nth (k / 8) array 0%N) (N.of_nat (k mod 8)).
Lemma set_bit_at_spec array k : k / 8 < length array -> wf_bytes array -> exists array',
  set_bit_at array (k / 8) (k mod 8) = Ok array' /\ length array' = length array /\ wf_bytes array' /\
  forall j, array_bit array' j = array_bit array j || (j =? k).
Proof.
  intros L W. unfold set_bit_at. destruct (Nat.ltb_spec (k / 8) (length array)); [|lia].
  eexists. split; [reflexivity|]. split; [|split].
  - rewrite app_length. cbn [length]. rewrite firstn_length, skipn_length. lia.
  - apply wf_bytes_app. split; [now apply wf_firstn|]. apply wf_bytes_cons. split; [|now apply wf_skipn].
    assert (B : (nth (k / 8) array 0 < 2 ^ 8)%N).
    { change (2 ^ 8)%N with 256%N. unfold wf_bytes in W. rewrite Forall_forall in W. apply W, nth_In. assumption. }
    change 256%N with (2 ^ 8)%N. apply bits_small. intros j J. rewrite N.lor_spec, N.pow2_bits_eqb.
    rewrite (small_bits _ 8) by assumption. cbn [orb]. apply N.eqb_neq. lia.
  - intros j. unfold array_bit.
    destruct (lt_eq_lt_dec (j / 8) (k / 8)) as [[Lt|Eq]|Gt].
    + rewrite app_nth1 by (rewrite firstn_length; lia).
      replace (nth (j / 8) (firstn (k / 8) array) 0%N) with (nth (j / 8) array 0%N).
      * replace (j =? k) with false by lia. now rewrite orb_false_r.
      * rewrite <- (firstn_skipn (k / 8) array) at 1. apply app_nth1. rewrite firstn_length. lia.
    + rewrite app_nth2 by (rewrite firstn_length; lia). rewrite firstn_length.
      replace (j / 8 - Nat.min (k / 8) (length array)) with 0 by lia. cbn [nth].
      rewrite N.lor_spec, N.pow2_bits_eqb, Eq. f_equal. lia.
    + rewrite app_nth2 by (rewrite firstn_length; lia). rewrite firstn_length.
      replace (j / 8 - Nat.min (k / 8) (length array)) with (S (j / 8 - S (k / 8))) by lia. cbn [nth].
      replace (nth (j / 8 - S (k / 8)) (skipn (S (k / 8)) array) 0%N) with (nth (j / 8) array 0%N).
      * replace (j =? k) with false by lia. now rewrite orb_false_r.
      * rewrite <- (firstn_skipn (S (k / 8)) array) at 1. rewrite app_nth2 by (rewrite firstn_length; lia).
        f_equal. rewrite firstn_length. lia.
Qed.
(** the smallest byte index of the non-zero numbers, or the start value *)
Definition low_byte (aids : list nat) (n : nat) : Prop :=
  (forall a, In a aids -> a <> 0 -> n <= a / 8) /\
  ((exists a, In a aids /\ a <> 0 /\ n = a / 8) \/ n = 251).
Definition high_byte (aids : list nat) (n : nat) : Prop :=
  (forall a, In a aids -> a / 8 <= n) /\ ((exists a, In a aids /\ n = a / 8) \/ n = 0).
Record built (aids : list nat) (array : bytes) (n1 n2 : nat) : Prop := {
  built_len : length array = 251;
  built_wf : wf_bytes array;
  built_bits : forall k, array_bit array k = existsb (Nat.eqb k) aids;
  built_low : low_byte aids n1;
  built_high : high_byte aids n2
}.
Lemma repeat_bit k : array_bit (repeat 0%N 251) k = false.
Proof.
  unfold array_bit. replace (nth (k / 8) (repeat 0%N 251) 0%N) with 0%N; [apply N.bits_0|].
  destruct (Nat.lt_ge_cases (k / 8) 251) as [L|L].
  - symmetry. eapply repeat_spec. apply nth_In. now rewrite repeat_length.
  - symmetry. apply nth_overflow. now rewrite repeat_length.
Qed.
Lemma built_start : built [] (repeat 0%N 251) 251 0.
Proof.
  split.
  - apply repeat_length.
  - unfold wf_bytes. apply Forall_forall. intros x H. apply repeat_spec in H. subst. reflexivity.
  - intros k. rewrite repeat_bit. reflexivity.
  - split; [intros a []|now right].
  - split; [intros a []|now right].
Qed.
Lemma built_add done array n1 n2 aid : built done array n1 n2 -> aid <= 2007 -> exists array' n1' n2',
  tim_add aid (array, n1, n2) = Ok (array', n1', n2') /\ built (done ++ [aid]) array' n1' n2'.
Proof.
  intros B A. destruct (set_bit_at_spec array aid) as (array' & E & L & W & Bits).
  { rewrite (built_len _ _ _ _ B). lia. } { apply (built_wf _ _ _ _ B). }
  unfold tim_add. rewrite E. cbn [rbind]. do 3 eexists. split; [reflexivity|]. split.
  - rewrite L. apply (built_len _ _ _ _ B).
  - assumption.
  - intros k. rewrite Bits, (built_bits _ _ _ _ B), existsb_app. cbn [existsb]. now rewrite orb_false_r.
  - destruct (built_low _ _ _ _ B) as [Lo Ex]. split.
    + intros a I Nz. apply in_app_iff in I as [I|[<-|[]]].
      * specialize (Lo _ I Nz). destruct ((aid / 8 <? n1) && negb (aid =? 0)) eqn:T; lia.
      * destruct ((aid / 8 <? n1) && negb (aid =? 0)) eqn:T; lia.
    + destruct ((aid / 8 <? n1) && negb (aid =? 0)) eqn:T.
      * left. exists aid. split; [apply in_or_app; right; now left|]. split; [lia|reflexivity].
      * destruct Ex as [(a & I & Nz & ->)| ->]; [left|now right]. exists a. split; [apply in_or_app; now left|now split].
  - destruct (built_high _ _ _ _ B) as [Hi Ex]. split.
    + intros a I. apply in_app_iff in I as [I|[<-|[]]].
      * specialize (Hi _ I). destruct (Nat.ltb_spec n2 (aid / 8)); lia.
      * destruct (Nat.ltb_spec n2 (aid / 8)); lia.
    + destruct (Nat.ltb_spec n2 (aid / 8)).
      * left. exists aid. split; [apply in_or_app; right; now left|reflexivity].
      * destruct Ex as [(a & I & ->)| ->]; [left|now right]. exists a. split; [apply in_or_app; now left|reflexivity].
Qed.
Lemma built_all aids : forall done array n1 n2, Forall (fun a => a <= 2007) aids -> built done array n1 n2 ->
  exists array' n1' n2', tim_add_all aids (array, n1, n2) = Ok (array', n1', n2') /\
    tim_add_checked aids (array, n1, n2) = Ok (array', n1', n2') /\ built (done ++ aids) array' n1' n2'.
Proof.
  induction aids as [|a aids IH]; intros done array n1 n2 F B.
  - do 3 eexists. rewrite app_nil_r. cbn. eauto.
  - inversion F as [|? ? A F' ]; subst. destruct (built_add _ _ _ _ _ B A) as (x & y & z & E & B').
    destruct (IH _ _ _ _ F' B') as (x' & y' & z' & E1 & E2 & B'').
    exists x', y', z'. cbn [tim_add_all tim_add_checked]. rewrite E. cbn [rbind].
    destruct (Nat.ltb_spec 2007 a); [lia|]. rewrite <- app_assoc in B''. auto.
Qed.
Lemma built_aids aids : Forall (fun a => a <= 2007) aids -> exists array n1 n2,
  tim_add_all aids (repeat 0%N 251, 251, 0) = Ok (array, n1, n2) /\
  tim_add_checked aids (repeat 0%N 251, 251, 0) = Ok (array, n1, n2) /\ built aids array n1 n2.
Proof. intros F. exact (built_all aids [] _ _ _ F built_start). Qed.
Lemma low_bound aids n : low_byte aids n -> Forall (fun a => a <= 2007) aids -> n <= 251.
Proof.
  intros [_ [(a & I & _ & ->)| ->]] F; [|lia]. rewrite Forall_forall in F. specialize (F _ I). cbn beta in F. lia.
Qed.
Lemma high_bound aids n : high_byte aids n -> Forall (fun a => a <= 2007) aids -> n <= 250.
Proof.
  intros [_ [(a & I & ->)| ->]] F; [|lia]. rewrite Forall_forall in F. specialize (F _ I). cbn beta in F. lia.
Qed.
Lemma existsb_in k l : existsb (Nat.eqb k) l = true <-> In k l.
Proof.
  rewrite existsb_exists. split.
  - intros (x & I & E). apply Nat.eqb_eq in E. now subst.
  - intros I. exists k. split; [assumption|apply Nat.eqb_refl].
Qed.
(** the bytes [lo ..= hi] of the array *)
Lemma array_slice array lo hi : lo <= S hi -> S hi <= length array ->
  slice array lo (S hi) = @Ok serr _ (firstn (S hi - lo) (skipn lo array)).
Proof. intros A B. unfold slice. destruct (Nat.leb_spec lo (S hi)); [|lia]. destruct (Nat.leb_spec (S hi) (length array)); [reflexivity|lia]. Qed.
Lemma nth_skipn {A} (l : list A) d n : forall i, nth i (skipn n l) d = nth (n + i) l d.
Proof. revert l. induction n as [|n IH]; intros [|x l] i; cbn; auto. destruct i; reflexivity. Qed.
Lemma nth_firstn {A} (l : list A) d n : forall i, i < n -> nth i (firstn n l) d = nth i l d.
Proof. revert l. induction n as [|n IH]; intros [|x l] [|i] H; cbn; auto; try lia. apply IH. lia. Qed.
Lemma slice_bits array lo hi k :
  virtual_bit lo (firstn (S hi - lo) (skipn lo array)) k
  = (lo <=? k / 8) && (k / 8 <=? hi) && array_bit array k.
Proof.
  unfold virtual_bit, array_bit. destruct (Nat.leb_spec lo (k / 8)); [cbn [andb]|reflexivity].
  destruct (Nat.leb_spec (k / 8) hi); cbn [andb].
  - rewrite nth_firstn by lia. rewrite nth_skipn. do 2 f_equal. lia.
  - rewrite nth_overflow by (rewrite firstn_length; lia). apply N.bits_0.
Qed.
End Build.
