(** Equality and hashing of elements. *)
From Verif Require Import Base SpecBase BaseFacts Bits Layouts BitsFacts Common CommonFacts Elements ElementTypes Tim SpecTim TimFacts TimFacts2 Hashes SpecHash.

Lemma bytes_eqb_eq a b : bytes_eqb a b = true -> a = b.
Proof. unfold bytes_eqb. now destruct (list_eq_dec N.eq_dec a b). Qed.
Lemma ok_true (b : bool) : @Ok serr bool b = Ok true -> b = true.
Proof. congruence. Qed.
Lemma ok_tb (a b : TIMBitmap) : @Ok serr TIMBitmap a = Ok b -> a = b.
Proof. congruence. Qed.
(** the bytes of an array by its bits *)
Lemma byte_zero array i : wf_bytes array -> (forall k, k / 8 = i -> array_bit array k = false) -> nth i array 0%N = 0%N.
Proof.
  intros W B. apply N.bits_inj. intros j. rewrite N.bits_0.
  assert (S : (nth i array 0 < 256)%N).
  { destruct (Nat.lt_ge_cases i (length array)) as [L|L]; [|rewrite nth_overflow by exact L; reflexivity].
    unfold wf_bytes in W. rewrite Forall_forall in W. now apply W, nth_In. }
  destruct (N.lt_ge_cases j 8) as [L|L].
  - specialize (B (8 * i + N.to_nat j)). unfold array_bit in B.
    replace ((8 * i + N.to_nat j) / 8) with i in B by lia. replace ((8 * i + N.to_nat j) mod 8) with (N.to_nat j) in B by lia.
    rewrite N2Nat.id in B. now apply B.
  - destruct (N.eq_dec (nth i array 0%N) 0) as [->|Z]; [apply N.bits_0|]. apply N.bits_above_log2.
    apply N.log2_lt_pow2; [lia|]. apply (N.lt_le_trans _ (2 ^ 8)); [exact S|]. apply N.pow_le_mono_r; lia.
Qed.
Lemma byte_one array : wf_bytes array -> (forall k, k / 8 = 0 -> array_bit array k = (k =? 0)) -> nth 0 array 0%N = 1%N.
Proof.
  intros W B. apply N.bits_inj. intros j.
  assert (S : (nth 0 array 0 < 256)%N).
  { destruct array as [|x l]; [reflexivity|]. apply wf_bytes_cons in W. apply W. }
  destruct (N.lt_ge_cases j 8) as [L|L].
  - specialize (B (N.to_nat j)). unfold array_bit in B.
    replace (N.to_nat j / 8) with 0 in B by lia. replace (N.to_nat j mod 8) with (N.to_nat j) in B by lia.
    rewrite N2Nat.id in B. rewrite B by reflexivity.
    destruct j as [|p]; [reflexivity|]. change 1%N with (2 ^ 0)%N. rewrite N.pow2_bits_false by lia.
    destruct (Nat.eqb_spec (N.to_nat (N.pos p)) 0); [lia|reflexivity].
  - transitivity false.
    + destruct (N.eq_dec (nth 0 array 0%N) 0) as [->|Z]; [apply N.bits_0|]. apply N.bits_above_log2.
      apply N.log2_lt_pow2; [lia|]. apply (N.lt_le_trans _ (2 ^ 8)); [exact S|]. apply N.pow_le_mono_r; lia.
    + symmetry. change 1%N with (2 ^ 0)%N. apply N.pow2_bits_false. lia.
Qed.

(** numbers for which [tim_add] does not panic *)
Lemma tim_add_range {cfg : Cfg} aid array n1 n2 r : length array = 251 -> tim_add aid (array, n1, n2) = Ok r -> aid <= 2007.
Proof.
  intros L E. unfold tim_add, set_bit_at in E. rewrite L in E. destruct (Nat.ltb_spec (aid / 8) 251); [lia|discriminate].
Qed.
Lemma tim_add_len {cfg : Cfg} aid array n1 n2 array' n1' n2' : length array = 251 -> tim_add aid (array, n1, n2) = Ok (array', n1', n2') -> length array' = 251.
Proof.
  intros L E. unfold tim_add, set_bit_at in E. rewrite L in E. destruct (Nat.ltb_spec (aid / 8) 251) as [H|]; [|discriminate].
  cbn [rbind] in E.
  assert (X : array' = firstn (aid / 8) array ++ N.lor (nth (aid / 8) array 0%N) (2 ^ N.of_nat (aid mod 8)) :: skipn (S (aid / 8)) array) by congruence.
  rewrite X. rewrite app_length, firstn_length. cbn [length]. rewrite skipn_length, L. lia.
Qed.
Lemma tim_add_all_range {cfg : Cfg} aids : forall array n1 n2 r, length array = 251 -> tim_add_all aids (array, n1, n2) = Ok r ->
  Forall (fun a => a <= 2007) aids.
Proof.
  induction aids as [|a aids IH]; intros array n1 n2 r L E; [constructor|]. cbn [tim_add_all] in E.
  destruct (tim_add a (array, n1, n2)) as [[[x y] z]| |] eqn:A; try discriminate E. cbn [rbind] in E.
  constructor; [exact (tim_add_range _ _ _ _ _ L A)|]. exact (IH _ _ _ _ (tim_add_len _ _ _ _ _ _ _ L A) E).
Qed.
Lemma tim_add_checked_range {cfg : Cfg} aids : forall st r, tim_add_checked aids st = Ok r -> Forall (fun a => a <= 2007) aids.
Proof.
  induction aids as [|a aids IH]; intros st r E; [constructor|]. cbn [tim_add_checked] in E.
  destruct (Nat.ltb_spec 2007 a) as [|H]; [discriminate|]. destruct (tim_add a st) as [x| |]; try discriminate E. cbn [rbind] in E.
  constructor; [exact H|eauto].
Qed.

(** ** [new_static] *)
Definition tidy_static (t : TIMBitmap) : Prop := exists array n, tb_bitmap t = Some (BStatic array n) /\ length array = 251 /\ n <= 250 /\
  forall i, n < i -> nth i array 0%N = 0%N.
Lemma firstn_Forall {A} (P : A -> Prop) n l : Forall P l -> Forall P (firstn n l).
Proof. intros H. rewrite <- (firstn_skipn n l) in H. apply Forall_app in H. apply H. Qed.
Lemma new_static_firstn {cfg : Cfg} group aids : tb_new_static group aids = tb_new_static group (firstn 2007 aids).
Proof. unfold tb_new_static. now rewrite firstn_firstn, Nat.min_id. Qed.
Lemma new_static_tidy {cfg : Cfg} t : by_new_static t -> tidy_static t.
Proof.
  intros (group & aids & E). rewrite new_static_firstn in E. set (l := firstn 2007 aids) in *.
  assert (Ll : length l <= 2007) by (unfold l; rewrite firstn_length; lia). clearbody l.
  assert (F : Forall (fun a => a <= 2007) (numbers l)).
  { unfold tb_new_static in E. rewrite (firstn_all2 l Ll) in E.
    destruct (tim_add_all _ _) as [r| |] eqn:A in E; try discriminate E.
    refine (tim_add_all_range _ _ _ _ _ _ A). apply repeat_length. }
  destruct (static_built group l Ll F) as (array & n1 & n2 & B & L1 & L2 & array' & E' & La & W & Bits).
  rewrite E in E'. injection E' as ->. exists array', n2. split; [reflexivity|]. split; [exact La|]. split; [exact L2|].
  intros i Hi. apply byte_zero; [exact W|]. intros k Hk. rewrite Bits, (built_bits _ _ _ _ B).
  destruct (existsb (Nat.eqb k) (numbers l)) eqn:X.
  - apply existsb_in in X. destruct (built_high _ _ _ _ B) as [H _]. specialize (H _ X). lia.
  - destruct (Nat.eqb_spec k 1) as [->|]; [change (1 / 8) with 0 in Hk; lia|now rewrite andb_false_r].
Qed.
Lemma nth_ext_251 (a b : bytes) : length a = 251 -> length b = 251 -> (forall i, i < 251 -> nth i a 0%N = nth i b 0%N) -> a = b.
Proof. intros A B H. apply (nth_ext a b 0%N 0%N); [congruence|]. intros i L. apply H. lia. Qed.
Lemma static_law : HashLaw tb_eq feed_tim_bitmap tidy_static.
Proof.
  intros [ca ba] [cb bb] (x & n & Ea & La & Na & Za) (y & m & Eb & Lb & Nb & Zb) Q. cbn [tb_bitmap tb_control] in *. subst ba bb.
  unfold tb_eq in Q. cbn [tb_bitmap tb_control bm_bytes] in Q.
  destruct (N.eqb_spec ca cb) as [<-|]; cbn [negb] in Q; [|discriminate].
  rewrite !slice_to_ok in Q by lia. cbn [rbind] in Q. apply ok_true in Q. apply bytes_eqb_eq in Q.
  assert (n = m) as <-. { apply (f_equal (@length N)) in Q. rewrite !firstn_length in Q. lia. }
  assert (x = y) as <-; [|reflexivity]. apply nth_ext_251; [exact La|exact Lb|]. intros i Hi.
  destruct (Nat.lt_ge_cases n i) as [H|H]; [now rewrite Za, Zb|].
  rewrite <- (nth_firstn x 0%N (S n)), <- (nth_firstn y 0%N (S n)) by lia. now rewrite Q.
Qed.

(** ** [tim_bitmap!] *)
Definition tidy_const (t : TIMBitmap) : Prop := tb_bitmap t = None \/ exists array n1 n2,
  tb_bitmap t = Some (BConst array n1 n2) /\ length array = 251 /\ n1 = spec_n1 (tb_control t) /\
  (forall i, n2 < i -> nth i array 0%N = 0%N) /\
  (forall i, i < n1 -> nth i array 0%N = if (i =? 0) && spec_group (tb_control t) then 1%N else 0%N).
Lemma macro_tidy {cfg : Cfg} t : by_macro t -> tidy_const t.
Proof.
  intros [->|[(aids & E)|(min & max & E)]]; [left; reflexivity|right|right].
  - assert (F : Forall (fun a => a <= 2007) aids).
    { unfold tim_bitmap_list in E. destruct (tim_add_checked _ _) as [r| |] eqn:A in E; try discriminate E.
      exact (tim_add_checked_range _ _ _ A). }
    destruct (built_aids aids F) as (array & n1 & n2 & _ & A & B).
    pose proof (low_bound _ _ (built_low _ _ _ _ B) F) as L1.
    unfold tim_bitmap_list in E. rewrite A in E. cbn [rbind] in E. rewrite land_even in E by lia.
    rewrite tbc_with_n1_spec in E by lia. cbn [rbind] in E. apply ok_tb in E as <-. cbn [tb_bitmap tb_control].
    do 3 eexists. split; [reflexivity|]. split; [apply (built_len _ _ _ _ B)|]. rewrite control_of_n1, control_of_group.
    split; [lia|]. pose proof (built_wf _ _ _ _ B) as W.
    destruct (built_low _ _ _ _ B) as [Lo _]. destruct (built_high _ _ _ _ B) as [Hi _]. split.
    + intros i Li. apply byte_zero; [exact W|]. intros k Hk. rewrite (built_bits _ _ _ _ B).
      destruct (existsb (Nat.eqb k) aids) eqn:X; [|reflexivity]. apply existsb_in in X. specialize (Hi _ X). lia.
    + intros i Li. destruct i as [|i]; cbn [Nat.eqb andb].
      * destruct (existsb (fun aid => aid =? 0) aids) eqn:Z.
        -- apply byte_one; [exact W|]. intros k Hk. rewrite (built_bits _ _ _ _ B). destruct (Nat.eqb_spec k 0) as [->|NZ].
           ++ rewrite <- Z. clear. induction aids as [|a l IH]; [reflexivity|]. cbn [existsb]. rewrite IH. now rewrite (Nat.eqb_sym 0 a).
           ++ destruct (existsb (Nat.eqb k) aids) eqn:X; [|reflexivity]. apply existsb_in in X. specialize (Lo _ X NZ). lia.
        -- apply byte_zero; [exact W|]. intros k Hk. rewrite (built_bits _ _ _ _ B).
           destruct (existsb (Nat.eqb k) aids) eqn:X; [|reflexivity]. apply existsb_in in X.
           destruct (Nat.eq_dec k 0) as [->|NZ]; [|specialize (Lo _ X NZ); lia].
           assert (Y : existsb (fun aid => aid =? 0) aids = true) by (apply existsb_exists; exists 0; auto). congruence.
      * apply byte_zero; [exact W|]. intros k Hk. rewrite (built_bits _ _ _ _ B).
        destruct (existsb (Nat.eqb k) aids) eqn:X; [|reflexivity]. apply existsb_in in X.
        assert (NZ : k <> 0) by (intros ->; discriminate Hk). specialize (Lo _ X NZ). lia.
  - unfold tim_bitmap_range in E. destruct (Nat.ltb_spec 2007 max) as [|M]; [discriminate|].
    destruct (set_bits_spec (seq min (S max - min)) (repeat 0%N 251)) as (array & SB & Len & W & Bits).
    { apply Forall_forall. intros a I. apply in_seq in I. rewrite repeat_length. lia. }
    { apply (built_wf _ _ _ _ built_start). }
    rewrite SB in E. cbn [rbind] in E. rewrite repeat_length in Len.
    set (n1 := N.to_nat (N.land (N.of_nat (min / 8)) 254)) in *.
    assert (H1 : n1 < 256 /\ n1 = 2 * (n1 / 2) /\ (min <= max -> n1 <= min / 8)).
    { assert (X : N.land (N.of_nat (min / 8)) 254 = N.land (N.of_nat (min / 8) mod 256) 254).
      { rewrite <- (N.land_ones _ 8). change (N.ones 8) with 255%N. now rewrite <- N.land_assoc. }
      set (q := min / 8) in *.
      assert (Y : n1 = 2 * (q mod 256 / 2)).
      { unfold n1. rewrite X. replace (N.of_nat q mod 256)%N with (N.of_nat (q mod 256)) by lia. apply land_even. lia. }
      rewrite Y. split; [lia|]. split; [lia|]. intros LM. assert (q < 256) by (unfold q; lia). lia. }
    clearbody n1. destruct H1 as (N1 & N2 & N3). rewrite tbc_with_n1_spec in E by exact N1. cbn [rbind] in E. apply ok_tb in E as <-.
    cbn [tb_bitmap tb_control]. do 3 eexists. split; [reflexivity|]. split; [exact Len|]. rewrite control_of_n1, control_of_group.
    split; [exact N2|]. split.
    + intros i Li. apply byte_zero; [exact W|]. intros k Hk. rewrite Bits, repeat_bit. cbn [orb].
      destruct (existsb (Nat.eqb k) _) eqn:X; [|reflexivity]. apply existsb_in, in_seq in X. lia.
    + intros i Li. replace ((i =? 0) && (min =? 0)) with false.
      * apply byte_zero; [exact W|]. intros k Hk. rewrite Bits, repeat_bit. cbn [orb].
        destruct (existsb (Nat.eqb k) _) eqn:X; [|reflexivity]. apply existsb_in, in_seq in X. lia.
      * symmetry. destruct (Nat.eqb_spec i 0); [|reflexivity]. destruct (Nat.eqb_spec min 0) as [Z|]; [|reflexivity].
        subst min. change (0 / 8) with 0 in N3. lia.
Qed.
Lemma const_law : HashLaw tb_eq feed_tim_bitmap tidy_const.
Proof.
  intros [ca ba] [cb bb] A B Q. unfold tb_eq in Q. cbn [tb_bitmap tb_control] in *.
  destruct (N.eqb_spec ca cb) as [<-|]; cbn [negb] in Q; [|discriminate].
  destruct A as [A|(x & n1 & n2 & A & La & Na & Ha & Lo)], B as [B|(y & m1 & m2 & B & Lb & Nb & Hb & Lo')]; cbn [tb_bitmap tb_control] in *; subst ba bb;
    [reflexivity| | |].
  - destruct (bm_bytes _); discriminate Q.
  - destruct (bm_bytes _); discriminate Q.
  - assert (m1 = n1) as -> by congruence. cbn [bm_bytes] in Q. unfold slice in Q. rewrite La, Lb in Q.
    destruct (Nat.leb_spec n1 (S n2)) as [X1|]; cbn [andb rbind] in Q; [|discriminate].
    destruct (Nat.leb_spec (S n2) 251) as [X2|]; cbn [andb rbind] in Q; [|discriminate].
    destruct (Nat.leb_spec n1 (S m2)) as [X3|]; cbn [andb rbind] in Q; [|discriminate].
    destruct (Nat.leb_spec (S m2) 251) as [X4|]; cbn [andb rbind] in Q; [|discriminate].
    apply ok_true in Q. apply bytes_eqb_eq in Q.
    assert (n2 = m2) as <-. { pose proof (f_equal (@length N) Q) as Z. rewrite !firstn_length, !skipn_length in Z. lia. }
    assert (x = y) as <-; [|reflexivity]. apply nth_ext_251; [exact La|exact Lb|]. intros i Hi.
    destruct (Nat.lt_ge_cases n2 i) as [H|H]; [now rewrite Ha, Hb|].
    destruct (Nat.lt_ge_cases i n1) as [H'|H']; [now rewrite Lo, Lo'|].
    replace i with (n1 + (i - n1)) by lia. rewrite <- !nth_skipn.
    rewrite <- (nth_firstn (skipn n1 x) 0%N (S n2 - n1)), <- (nth_firstn (skipn n1 y) 0%N (S n2 - n1)) by lia. now rewrite Q.
Qed.
Lemma slice_law : HashLaw tb_eq feed_tim_bitmap of_slice.
Proof.
  intros [ca ba] [cb bb] A B Q. unfold tb_eq in Q. unfold of_slice in *. cbn [tb_bitmap tb_control] in *.
  destruct (N.eqb_spec ca cb) as [<-|]; cbn [negb] in Q; [|discriminate].
  destruct ba as [[x| |]|], bb as [[y| |]|]; try contradiction; cbn [bm_bytes rbind] in Q; try discriminate; [|reflexivity].
  apply ok_true in Q. apply bytes_eqb_eq in Q as <-. reflexivity.
Qed.
Lemma law_weaken {A} eq feed (P Q : A -> Prop) : (forall a, P a -> Q a) -> HashLaw eq feed Q -> HashLaw eq feed P.
Proof. intros I L a b Pa Pb. apply L; auto. Qed.
Lemma tim_law (values : TIMBitmap -> Prop) : HashLaw tb_eq feed_tim_bitmap values -> HashLaw te_eq feed_tim (with_bitmap values).
Proof.
  intros L [c p b] [c' p' b'] A B Q. unfold te_eq, with_bitmap in *. cbn [te_count te_period te_bitmap] in *.
  destruct (N.eqb_spec c c') as [<-|]; [|discriminate]. destruct (N.eqb_spec p p') as [<-|]; [|discriminate]. cbn [andb negb] in Q.
  destruct b as [x|], b' as [y|]; try discriminate; [|reflexivity].
  unfold feed_tim. cbn [te_count te_period te_bitmap feed_option]. now rewrite (L x y A B Q).
Qed.
Lemma tim_hash {cfg : Cfg} : HashLaw te_eq feed_tim (with_bitmap of_slice) /\
  HashLaw te_eq feed_tim (with_bitmap by_new_static) /\ HashLaw te_eq feed_tim (with_bitmap by_macro).
Proof.
  split; [|split]; apply tim_law; [exact slice_law| |].
  - exact (law_weaken _ _ _ _ new_static_tidy static_law).
  - exact (law_weaken _ _ _ _ macro_tidy const_law).
Qed.
(** two values whose arrays differ behind the used part *)
Lemma tim_hash_static : exists a b, te_eq a b = Ok true /\ feed_tim a <> feed_tim b /\
  (forall t, t = a \/ t = b -> exists array n, te_bitmap t = Some (mkTB 0%N (Some (BStatic array n))) /\ length array = 251).
Proof.
  exists (mkTIM 0 1 (Some (mkTB 0%N (Some (BStatic (repeat 0%N 251) 0))))), (mkTIM 0 1 (Some (mkTB 0%N (Some (BStatic (0%N :: repeat 1%N 250) 0))))).
  split; [reflexivity|]. split; [discriminate|]. intros t [-> | ->]; do 2 eexists; (split; [reflexivity|]); reflexivity.
Qed.


(** ** Different values pass different data *)
Lemma feed_slice_inj a b : feed_slice a = feed_slice b -> a = b.
Proof. unfold feed_slice. intros E. now injection E. Qed.
Definition same_form (a b : Bitmap) : Prop :=
  match a, b with BSlice _, BSlice _ | BStatic _ _, BStatic _ _ | BConst _ _ _, BConst _ _ _ => True | _, _ => False end.
Lemma feed_bitmap_inj a b : same_form a b -> feed_bitmap a = feed_bitmap b -> a = b.
Proof. destruct a, b; cbn; try contradiction; intros _ E; injection E; intros; subst; reflexivity. Qed.
Lemma feed_tb_inj a b : (forall x y, tb_bitmap a = Some x -> tb_bitmap b = Some y -> same_form x y) -> feed_tim_bitmap a = feed_tim_bitmap b -> a = b.
Proof.
  destruct a as [c [x|]], b as [c' [y|]]; unfold feed_tim_bitmap; cbn [tb_bitmap tb_control feed_option]; intros S E; try discriminate E.
  - injection E as <- E. apply feed_bitmap_inj in E; [now subst|now apply S].
  - injection E as <-. reflexivity.
Qed.
Lemma distinct_tim (values : TIMBitmap -> Prop) :
  (forall a b x y, values a -> values b -> tb_bitmap a = Some x -> tb_bitmap b = Some y -> same_form x y) -> HashDistinct feed_tim (with_bitmap values).
Proof.
  intros S [c p b] [c' p' b'] A B E. unfold feed_tim in E. cbn [te_count te_period te_bitmap with_bitmap] in *. unfold with_bitmap in A, B. cbn [te_bitmap] in *.
  destruct b as [x|], b' as [y|]; cbn [feed_option app] in E; try discriminate E; [|injection E as <- <-; reflexivity].
  injection E as <- <- C E.
  assert (X : feed_tim_bitmap x = feed_tim_bitmap y) by (unfold feed_tim_bitmap; now rewrite C, E).
  apply feed_tb_inj in X; [now subst|]. intros u v. now apply S.
Qed.
Lemma tim_hash_distinct {cfg : Cfg} : HashDistinct feed_tim (with_bitmap of_slice) /\
  HashDistinct feed_tim (with_bitmap by_new_static) /\ HashDistinct feed_tim (with_bitmap by_macro).
Proof.
  split; [|split]; apply distinct_tim; intros a b x y A B Ea Eb.
  - unfold of_slice in *. rewrite Ea in A. rewrite Eb in B. destruct x, y; try contradiction. exact I.
  - apply new_static_tidy in A as (? & ? & A & _), B as (? & ? & B & _). rewrite Ea in A. rewrite Eb in B. injection A as ->. injection B as ->. exact I.
  - apply macro_tidy in A as [A|(? & ? & ? & A & _)]; [congruence|]. apply macro_tidy in B as [B|(? & ? & ? & B & _)]; [congruence|].
    rewrite Ea in A. rewrite Eb in B. injection A as ->. injection B as ->. exact I.
Qed.
