(** How many changed bits the FCS detects. *)
From Coq Require Import MSets.MSetPositive.
From Verif Require Import Base BaseFacts Crc SpecFcs CrcFacts.
Local Open Scope N_scope.

(** ** Error patterns as sums of powers of the generator *)
(** the register [k] steps after a single bit *)
Definition tp (k : nat) : N := Nat.iter k crc_bit 1.
Definition xs (l : list N) : N := fold_right N.lxor 0 l.
Lemma tp_bound k : tp k < 2 ^ 32.
Proof. apply iter_crc_bound. reflexivity. Qed.
Lemma xs_bound l : Forall (fun x => x < 2 ^ 32) l -> xs l < 2 ^ 32.
Proof. induction 1; [reflexivity|]. cbn [xs fold_right]. now apply lxor_bound32. Qed.
Lemma xs_middle l1 x l2 : xs (l1 ++ x :: l2) = N.lxor x (xs (l1 ++ l2)).
Proof.
  induction l1 as [|y l1 IH]; [reflexivity|]. cbn [app xs fold_right]. unfold xs in IH at 1. rewrite IH.
  change (N.lxor y (N.lxor x (xs (l1 ++ l2))) = N.lxor x (N.lxor y (xs (l1 ++ l2)))).
  now rewrite <- !N.lxor_assoc, (N.lxor_comm y x).
Qed.
Lemma iter_zero n : Nat.iter n crc_bit 0 = 0.
Proof. induction n as [|n IH]; [reflexivity|]. change (crc_bit (Nat.iter n crc_bit 0) = 0). now rewrite IH. Qed.
Lemma iter_xs n l : Nat.iter n crc_bit (xs l) = xs (map (Nat.iter n crc_bit) l).
Proof.
  induction l as [|x l IH]; [apply iter_zero|]. cbn [map]. change (xs (x :: l)) with (N.lxor x (xs l)).
  rewrite iter_crc_lxor, IH. reflexivity.
Qed.
Lemma xs_pow_bits l : NoDup l -> forall j, N.testbit (xs (map (fun p => 2 ^ N.of_nat p) l)) j = existsb (fun p => N.of_nat p =? j) l.
Proof.
  induction 1 as [|p l NI ND IH]; intros j; [apply N.bits_0|].
  cbn [map existsb]. change (N.testbit (N.lxor (2 ^ N.of_nat p) (xs (map (fun p => 2 ^ N.of_nat p) l))) j = (N.of_nat p =? j) || existsb (fun p => N.of_nat p =? j) l).
  rewrite N.lxor_spec, IH, N.pow2_bits_eqb. destruct (N.eqb_spec (N.of_nat p) j) as [E|E]; [|apply xorb_false_l].
  replace (existsb _ l) with false; [reflexivity|]. symmetry. apply not_true_is_false. intros H. apply existsb_exists in H as (q & I & Q).
  apply N.eqb_eq in Q. apply NI. replace p with q by lia. exact I.
Qed.
Lemma max_in (l : list nat) : l <> [] -> exists r, In r l /\ forall p, In p l -> (p <= r)%nat.
Proof.
  induction l as [|x l IH]; intros H; [congruence|]. destruct l as [|y l].
  - exists x. split; [now left|]. intros p [->|[]]; lia.
  - destruct IH as (r & I & M); [discriminate|]. destruct (Nat.le_gt_cases x r) as [L|L].
    + exists r. split; [now right|]. intros p [<-|P]; [exact L|]. now apply M.
    + exists x. split; [now left|]. intros p [<-|P]; [lia|]. apply M in P. lia.
Qed.

(** a non-zero pattern with few bits that leaves no trace gives few steps adding up to 1 *)
Lemma few_steps n e flips : (forall j, N.testbit e j = true -> exists p, In p flips /\ N.of_nat p = j) -> e < 2 ^ N.of_nat n -> e <> 0 ->
  Nat.iter n crc_bit e = 0 ->
  exists ks, (length ks < length flips)%nat /\ (forall k, In k ks -> (0 < k < n)%nat) /\ xs (map tp ks) = 1.
Proof.
  intros B L Z H.
  set (l := filter (fun p => N.testbit e (N.of_nat p)) (nodup Nat.eq_dec flips)).
  assert (ND : NoDup l) by (apply NoDup_filter, NoDup_nodup).
  assert (Il : forall p, In p l <-> In p flips /\ N.testbit e (N.of_nat p) = true).
  { intros p. unfold l. rewrite filter_In, nodup_In. reflexivity. }
  assert (Ee : e = xs (map (fun p => 2 ^ N.of_nat p) l)).
  { apply N.bits_inj. intros j. rewrite (xs_pow_bits l ND). destruct (N.testbit e j) eqn:T.
    - symmetry. apply existsb_exists. destruct (B j T) as (p & I & <-). exists p. split; [now apply Il|apply N.eqb_refl].
    - symmetry. apply not_true_is_false. intros X. apply existsb_exists in X as (p & I & Q). apply N.eqb_eq in Q. subst j.
      apply Il in I as [_ I]. congruence. }
  assert (Pn : forall p, In p l -> (p < n)%nat).
  { intros p I. apply Il in I as [_ I]. destruct (Nat.ltb_spec p n) as [Q|Q]; [exact Q|]. exfalso.
    rewrite testbit_small in I; [discriminate|]. eapply N.lt_le_trans; [exact L|]. apply N.pow_le_mono_r; lia. }
  assert (NE : l <> []) by (intros E; apply Z; rewrite Ee, E; reflexivity).
  destruct (max_in l NE) as (r & Ir & Mr).
  pose proof (Pn r Ir) as Rn.
  apply in_split in Ir as (l1 & l2 & El). rewrite El in ND. pose proof (NoDup_remove_2 _ _ _ ND) as Nr.
  exists (map (fun p => (r - p)%nat) (l1 ++ l2)). split; [|split].
  - rewrite map_length. assert (Q : (length l <= length flips)%nat).
    { apply NoDup_incl_length; [rewrite El; exact ND|]. intros p I. now apply Il. }
    rewrite El, app_length in Q. cbn [length] in Q. rewrite app_length. lia.
  - intros k I. apply in_map_iff in I as (p & <- & I).
    assert (Ip : In p l) by (rewrite El; apply in_app_iff; apply in_app_iff in I; cbn [In]; tauto).
    pose proof (Pn p Ip). pose proof (Mr p Ip). assert (p <> r) by (intros ->; contradiction). lia.
  - assert (X : Nat.iter (n - r) crc_bit (N.lxor 1 (xs (map tp (map (fun p => (r - p)%nat) (l1 ++ l2))))) = 0).
    { assert (S : forall p, (p < n)%nat -> Nat.iter n crc_bit (2 ^ N.of_nat p) = tp (n - p)).
      { intros p Q. transitivity (Nat.iter ((n - p) + p) crc_bit (2 ^ N.of_nat p)); [f_equal; lia|]. rewrite iter_add. rewrite <- (N.mul_1_r (2 ^ N.of_nat p)), iter_crc_pow2. reflexivity. }
      assert (Y : Nat.iter n crc_bit e = N.lxor (tp (n - r)) (xs (map (fun p => tp (n - p)) (l1 ++ l2)))).
      { rewrite Ee, El, iter_xs, map_map, map_app. cbn [map]. rewrite xs_middle, <- map_app, S by exact Rn. f_equal. f_equal.
        apply map_ext_in. intros p I. apply S, Pn. rewrite El. apply in_app_iff. apply in_app_iff in I. cbn [In]. tauto. }
      rewrite <- H, Y, iter_crc_lxor, iter_xs, !map_map. f_equal. f_equal. apply map_ext_in. intros p I. unfold tp. rewrite <- iter_add. f_equal.
      assert (Ip : In p l) by (rewrite El; apply in_app_iff; apply in_app_iff in I; cbn [In]; tauto).
      pose proof (Mr p Ip). lia. }
    apply iter_crc_zero in X.
    + apply N.lxor_eq in X. symmetry. exact X.
    + apply lxor_bound32; [reflexivity|]. apply xs_bound. rewrite Forall_map. apply Forall_forall. intros k _. apply tp_bound.
Qed.

(** ** The order of the generator is 2^32 - 1 *)
(** a linear map on registers, by its values at the powers of two *)
Definition apply_cols (cols : list N) (v : N) : N :=
  xs (map (fun ic => if N.testbit v (N.of_nat (fst ic)) then snd ic else 0) (combine (seq 0 32) cols)).
Definition square (cols : list N) : list N := map (apply_cols cols) cols.
Definition cols1 : list N := map (fun i => crc_bit (2 ^ N.of_nat i)) (seq 0 32).
Definition Cols (m : nat) (cols : list N) : Prop := cols = map (fun i => Nat.iter m crc_bit (2 ^ N.of_nat i)) (seq 0 32).
Lemma combine_map_seq {A} (f : nat -> A) l : combine l (map f l) = map (fun i => (i, f i)) l.
Proof. induction l as [|x l IH]; [reflexivity|]. cbn [map combine]. now rewrite IH. Qed.
Lemma v_is_sum v : v < 2 ^ 32 -> v = xs (map (fun i => if N.testbit v (N.of_nat i) then 2 ^ N.of_nat i else 0) (seq 0 32)).
Proof.
  intros H. apply N.bits_inj. intros j.
  assert (S : forall l, NoDup l -> N.testbit (xs (map (fun i => if N.testbit v (N.of_nat i) then 2 ^ N.of_nat i else 0) l)) j =
                existsb (fun p => N.of_nat p =? j) l && N.testbit v j).
  { induction 1 as [|p l NI ND IH]; [apply N.bits_0|]. cbn [map existsb].
    match goal with |- N.testbit (xs (?x :: ?t)) j = _ => change (N.testbit (N.lxor x (xs t)) j = ((N.of_nat p =? j) || existsb (fun p => N.of_nat p =? j) l) && N.testbit v j) end.
    rewrite N.lxor_spec, IH. destruct (N.eqb_spec (N.of_nat p) j) as [E|E].
    - replace (existsb _ l) with false.
      2:{ symmetry. apply not_true_is_false. intros X. apply existsb_exists in X as (q & I & Q). apply N.eqb_eq in Q. apply NI. replace p with q by lia. exact I. }
      rewrite E. destruct (N.testbit v j) eqn:T; [|now rewrite N.bits_0]. rewrite N.pow2_bits_true. reflexivity.
    - replace (N.testbit (if N.testbit v (N.of_nat p) then 2 ^ N.of_nat p else 0) j) with false; [apply xorb_false_l|].
      symmetry. destruct (N.testbit v (N.of_nat p)); [|apply N.bits_0]. now apply N.pow2_bits_false. }
  rewrite S by apply seq_NoDup. destruct (N.testbit v j) eqn:T; [|now rewrite andb_false_r]. rewrite andb_true_r. symmetry. apply existsb_exists.
  exists (N.to_nat j). split; [|apply N.eqb_eq; lia]. apply in_seq. destruct (N.ltb_spec j 32) as [Q|Q]; [lia|].
  rewrite testbit_small in T; [discriminate|]. eapply N.lt_le_trans; [exact H|]. apply N.pow_le_mono_r; lia.
Qed.
Lemma apply_cols_spec m cols v : Cols m cols -> v < 2 ^ 32 -> apply_cols cols v = Nat.iter m crc_bit v.
Proof.
  intros -> H. unfold apply_cols. rewrite combine_map_seq, map_map. cbn [fst snd]. transitivity (Nat.iter m crc_bit (xs (map (fun i => if N.testbit v (N.of_nat i) then 2 ^ N.of_nat i else 0) (seq 0 32)))).
  2:{ f_equal. symmetry. now apply v_is_sum. }
  rewrite iter_xs, map_map. f_equal. apply map_ext. intros i. destruct (N.testbit v (N.of_nat i)); [reflexivity|]. symmetry. apply iter_zero.
Qed.
Lemma square_spec m cols : Cols m cols -> Cols (m + m) (square cols).
Proof.
  intros C. unfold square, Cols. rewrite C at 2. rewrite map_map. apply map_ext_in. intros i I. apply in_seq in I.
  rewrite iter_add. apply (apply_cols_spec m); [exact C|]. apply iter_crc_bound. apply N.pow_lt_mono_r; lia.
Qed.
(** [p] times [m] steps *)
Fixpoint steps (p : positive) (cols : list N) (v : N) : N :=
  match p with
  | xH => apply_cols cols v
  | xO p' => steps p' (square cols) v
  | xI p' => steps p' (square cols) (apply_cols cols v)
  end.
Lemma steps_spec p : forall m cols v, Cols m cols -> v < 2 ^ 32 -> steps p cols v = Nat.iter (m * Pos.to_nat p) crc_bit v.
Proof.
  induction p as [p IH|p IH|]; intros m cols v C H; cbn [steps].
  - rewrite (IH (m + m)%nat); [|now apply square_spec|rewrite (apply_cols_spec m cols v C H); now apply iter_crc_bound].
    rewrite (apply_cols_spec m cols v C H), <- iter_add. f_equal. rewrite Pos2Nat.inj_xI. lia.
  - rewrite (IH (m + m)%nat); [|now apply square_spec|exact H]. f_equal. rewrite Pos2Nat.inj_xO. lia.
  - rewrite (apply_cols_spec m cols v C H). f_equal. change (Pos.to_nat 1) with 1%nat. lia.
Qed.
Definition order : N := 2 ^ 32 - 1.
Lemma tp_steps p : tp (Pos.to_nat p) = steps p cols1 1.
Proof.
  rewrite (steps_spec p 1 cols1 1); [unfold tp; f_equal; lia| |reflexivity]. unfold Cols, cols1. reflexivity.
Qed.
Lemma tp_order : tp (N.to_nat order) = 1.
Proof. change (N.to_nat order) with (Pos.to_nat 4294967295). rewrite tp_steps. vm_compute. reflexivity. Qed.
(** numbers of steps that lead back to 1 *)
Lemma back_sub a b : (b <= a)%nat -> tp a = 1 -> tp b = 1 -> tp (a - b) = 1.
Proof.
  intros L A B. apply (iter_crc_inj b); [apply tp_bound|reflexivity|]. unfold tp. rewrite <- iter_add.
  replace (b + (a - b))%nat with a by lia. fold (tp a) (tp b). congruence.
Qed.
Lemma back_mul a k : tp a = 1 -> tp (k * a) = 1.
Proof.
  intros A. induction k as [|k IH]; [reflexivity|]. cbn [Nat.mul]. unfold tp. rewrite iter_add. fold (tp (k * a)). rewrite IH. exact A.
Qed.
Lemma back_gcd a : forall b, tp a = 1 -> tp b = 1 -> tp (Nat.gcd a b) = 1.
Proof.
  intros b A B. destruct (Nat.eq_dec a 0) as [->|Za]; [exact B|]. destruct (Nat.gcd_bezout_pos a b) as (u & v & E); [lia|].
  assert (X : tp (u * a) = 1) by (now apply back_mul). assert (Y : tp (v * b) = 1) by (now apply back_mul).
  replace (Nat.gcd a b) with (u * a - v * b)%nat by lia. apply back_sub; [lia|exact X|exact Y].
Qed.

(** no divisor below its square root: prime, in the form used below *)
Definition no_small_divisor (n : N) (bound : nat) : bool := forallb (fun d => negb (n mod N.of_nat d =? 0)) (seq 2 bound).
Lemma small_prime n bound : 1 < n -> n < N.of_nat (bound + 2) * N.of_nat (bound + 2) -> no_small_divisor n bound = true ->
  forall m, N.gcd m n = 1 \/ N.divide n m.
Proof.
  intros L B C m. set (d := N.gcd m n). pose proof (N.gcd_divide_r m n : (d | n)) as [e E].
  assert (No : forall x y, n = x * y -> 1 < x -> x <= y -> False).
  { intros x y Exy Lx Ly. unfold no_small_divisor in C. rewrite forallb_forall in C. specialize (C (N.to_nat x)).
    rewrite in_seq, N2Nat.id in C. rewrite Exy, N.mul_comm, N.mod_mul, N.eqb_refl in C by lia. cbn [negb] in C.
    enough (false = true) by discriminate. apply C. split; [lia|].
    assert (x < N.of_nat (bound + 2)); [|lia].
    destruct (N.ltb_spec x (N.of_nat (bound + 2))) as [Q|Q]; [exact Q|].
    pose proof (N.mul_le_mono _ _ _ _ Q (N.le_trans _ _ _ Q Ly)). lia. }
  assert (Zd : d <> 0) by (intros Z; rewrite Z, N.mul_0_r in E; lia).
  assert (Ze : e <> 0) by (intros Z; rewrite Z in E; lia).
  destruct (N.eq_dec d 1) as [D1|D1]; [now left|right].
  destruct (N.eq_dec e 1) as [E1|E1].
  - rewrite E, E1, N.mul_1_l. apply N.gcd_divide_l.
  - exfalso. destruct (N.le_gt_cases d e) as [Q|Q].
    + apply (No d e); [lia|lia|exact Q].
    + apply (No e d); [exact E|lia|lia].
Qed.
Definition order_factors : list N := [3; 5; 17; 257; 65537].
Lemma order_prime p : In p order_factors -> forall m, N.gcd m p = 1 \/ N.divide p m.
Proof.
  intros I. cbn [In order_factors] in I.
  destruct I as [<-|[<-|[<-|[<-|[<-|[]]]]]];
    [apply (small_prime 3 1)|apply (small_prime 5 1)|apply (small_prime 17 3)|apply (small_prime 257 15)|apply (small_prime 65537 255)];
    try reflexivity; vm_compute; reflexivity.
Qed.
Lemma order_divisor m : N.divide m order -> m <> 1 -> exists p, In p order_factors /\ N.divide p m.
Proof.
  intros D N1.
  destruct (order_prime 3 ltac:(cbn; tauto) m) as [A|A]; [|exists 3; split; [cbn; tauto|exact A]].
  destruct (order_prime 5 ltac:(cbn; tauto) m) as [B|B]; [|exists 5; split; [cbn; tauto|exact B]].
  destruct (order_prime 17 ltac:(cbn; tauto) m) as [C|C]; [|exists 17; split; [cbn; tauto|exact C]].
  destruct (order_prime 257 ltac:(cbn; tauto) m) as [E|E]; [|exists 257; split; [cbn; tauto|exact E]].
  destruct (order_prime 65537 ltac:(cbn; tauto) m) as [F|F]; [|exists 65537; split; [cbn; tauto|exact F]].
  exfalso. apply N1. change order with (3 * (5 * (17 * (257 * (65537 * 1))))) in D.
  do 5 (apply N.gauss in D; [|assumption]). now apply N.divide_1_r.
Qed.
Lemma tp_quotients p : In p order_factors -> exists q, order = N.pos q * p /\ tp (Pos.to_nat q) <> 1.
Proof.
  intros I. cbn [In order_factors] in I.
  destruct I as [<-|[<-|[<-|[<-|[<-|[]]]]]];
    [exists 1431655765%positive|exists 858993459%positive|exists 252645135%positive|exists 16711935%positive|exists 65535%positive];
    (split; [reflexivity|]); rewrite tp_steps; vm_compute; discriminate.
Qed.
Lemma no_short_cycle k : (0 < k)%nat -> N.of_nat k < order -> tp k <> 1.
Proof.
  intros P L H. set (M := N.to_nat order) in *. assert (LM : (k < M)%nat) by (unfold M; clearbody M; lia).
  set (g := Nat.gcd k M). assert (G : tp g = 1) by (apply back_gcd; [exact H|exact tp_order]).
  destruct (Nat.gcd_divide_r k M) as [m E]. fold g in E.
  destruct (Nat.gcd_divide_l k M) as [u U]. fold g in U.
  assert (Dm : N.divide (N.of_nat m) order) by (exists (N.of_nat g); unfold M in E; clearbody M g; lia).
  destruct (order_divisor (N.of_nat m) Dm) as (p & Ip & [m' Em]).
  - intros E1. assert (m = 1%nat) by lia. subst m. assert (u <> 0%nat) by (intros ->; lia). clearbody M g. nia.
  - destruct (tp_quotients p Ip) as (q & Q & NQ). apply NQ.
    assert (p <> 0) by (intros ->; lia).
    assert (Eq : Pos.to_nat q = (N.to_nat m' * g)%nat).
    { assert (X : N.pos q * p = (m' * N.of_nat g) * p) by (rewrite <- Q; unfold M in E; clearbody M g; nia).
      apply N.mul_cancel_r in X; [|assumption]. lia. }
    rewrite Eq. now apply back_mul.
Qed.

(** ** Three bits in frames up to the maximum length: no two steps add up to 1 *)
(** the register, the registers seen so far, and whether none of them differs from another in the lowest bit only *)
Definition pair_step (st : N * PositiveSet.t * bool) : N * PositiveSet.t * bool :=
  let '(s, seen, ok) := st in
  (crc_bit s, PositiveSet.add (N.succ_pos s) seen, ok && negb (PositiveSet.mem (N.succ_pos (N.lxor 1 s)) seen)).
Definition no_pair (n : N) : bool := snd (N.iter n pair_step (1, PositiveSet.empty, true)).
Lemma succ_pos_inj a b : N.succ_pos a = N.succ_pos b -> a = b.
Proof. intros E. apply (f_equal N.pos) in E. rewrite !N.succ_pos_spec in E. lia. Qed.
Lemma pair_inv n : let '(s, seen, ok) := N.iter n pair_step (1, PositiveSet.empty, true) in
  s = tp (N.to_nat n) /\ (forall k, (k < N.to_nat n)%nat -> PositiveSet.In (N.succ_pos (tp k)) seen) /\
  (ok = true -> forall a b, (a < b < N.to_nat n)%nat -> N.lxor 1 (tp b) <> tp a).
Proof.
  induction n as [|n IH] using N.peano_ind.
  - cbn [N.iter]. split; [reflexivity|]. split; intros; lia.
  - rewrite N.iter_succ. destruct (N.iter n pair_step _) as [[s seen] ok]. destruct IH as (-> & I & C). cbn [pair_step].
    rewrite N2Nat.inj_succ. split; [reflexivity|]. split.
    + intros k L. apply PositiveSet.add_spec. destruct (Nat.eq_dec k (N.to_nat n)) as [->|NE]; [now left|right]. apply I. lia.
    + intros K a b L. apply andb_prop in K as [K1 K2]. destruct (Nat.eq_dec b (N.to_nat n)) as [->|NE]; [|apply C; [exact K1|lia]].
      intros E. rewrite E in K2. apply negb_true_iff in K2. assert (X : PositiveSet.mem (N.succ_pos (tp a)) seen = true).
      { apply PositiveSet.mem_spec, I. lia. }
      congruence.
Qed.
Lemma no_pair_spec n : no_pair n = true -> forall a b, (a < N.to_nat n)%nat -> (b < N.to_nat n)%nat -> N.lxor (tp a) (tp b) <> 1.
Proof.
  intros H. unfold no_pair in H. pose proof (pair_inv n) as I. destruct (N.iter n pair_step _) as [[s seen] ok]. cbn [snd] in H. subst ok.
  destruct I as (_ & _ & C). specialize (C eq_refl).
  assert (G : forall a b, (a < b < N.to_nat n)%nat -> N.lxor (tp a) (tp b) <> 1).
  { intros a b L E. apply (C a b L). rewrite <- E, N.lxor_assoc, N.lxor_nilpotent. apply N.lxor_0_r. }
  intros a b A B. destruct (Nat.lt_total a b) as [L|[->|L]].
  - apply G. lia.
  - rewrite N.lxor_nilpotent. discriminate.
  - rewrite N.lxor_comm. apply G. lia.
Qed.
(** 11454 bytes *)
Lemma no_pair_mpdu : no_pair 91632 = true.
Proof. vm_compute. reflexivity. Qed.

(** ** Five bits in short frames *)
(** the sums of at most one and of at most two steps below [n] *)
Definition singles (n : nat) : list N := 0 :: map tp (seq 1 (n - 1)).
Fixpoint doubles (l : list N) : list N := match l with [] => [] | x :: l' => map (N.lxor x) l ++ doubles l' end.
Definition set_of (l : list N) : PositiveSet.t := fold_left (fun s x => PositiveSet.add (N.succ_pos x) s) l PositiveSet.empty.
(** no element of [l] and [m] add up to 1 *)
Definition apart (l m : list N) : bool :=
  let s := set_of l in forallb (fun x => negb (PositiveSet.mem (N.succ_pos (N.lxor 1 x)) s)) m.
(** the first steps, computed one after the other *)
Fixpoint steps_from (s : N) (n : nat) : list N := match n with O => [] | S n' => s :: steps_from (crc_bit s) n' end.
Lemma steps_from_spec n : forall k, steps_from (tp k) n = map tp (seq k n).
Proof. induction n as [|n IH]; intros k; [reflexivity|]. cbn [steps_from seq map]. f_equal. exact (IH (S k)). Qed.
Lemma singles_steps n : singles n = 0 :: steps_from (crc_bit 1) (n - 1).
Proof. unfold singles. f_equal. symmetry. exact (steps_from_spec (n - 1) 1). Qed.
Lemma doubles_spec l a b : In a l -> In b l -> In (N.lxor a b) (doubles l).
Proof.
  induction l as [|x l IH]; intros A B; [destruct A|]. cbn [doubles]. apply in_app_iff.
  destruct A as [->|A]; [left; now apply in_map|]. destruct B as [->|B]; [left; rewrite N.lxor_comm; apply in_map; now right|].
  right. now apply IH.
Qed.
Lemma set_of_spec l x : In x l -> PositiveSet.In (N.succ_pos x) (set_of l).
Proof.
  unfold set_of. generalize PositiveSet.empty as s.
  assert (K : forall l s y, PositiveSet.In y s -> PositiveSet.In y (fold_left (fun s x => PositiveSet.add (N.succ_pos x) s) l s)).
  { induction l0 as [|z l0 IH]; intros s y I; [exact I|]. cbn [fold_left]. apply IH, PositiveSet.add_spec. now right. }
  induction l as [|y l IH]; intros s I; [destruct I|]. cbn [fold_left]. destruct I as [->|I]; [|now apply IH].
  apply K, PositiveSet.add_spec. now left.
Qed.
Lemma apart_spec l m : apart l m = true -> forall x y, In x l -> In y m -> N.lxor x y <> 1.
Proof.
  intros H x y X Y E. unfold apart in H. cbv zeta in H. rewrite forallb_forall in H. specialize (H y Y). apply negb_true_iff in H.
  replace (N.lxor 1 y) with x in H.
  - assert (T : PositiveSet.mem (N.succ_pos x) (set_of l) = true) by (now apply PositiveSet.mem_spec, set_of_spec). congruence.
  - rewrite <- E, N.lxor_assoc, N.lxor_nilpotent. symmetry. apply N.lxor_0_r.
Qed.
(** 37 bytes *)
Lemma no_quadruple : apart (doubles (singles 296)) (doubles (singles 296)) = true.
Proof. rewrite singles_steps. vm_compute. reflexivity. Qed.
Lemma in_singles n ks : (length ks <= 1)%nat -> (forall k, In k ks -> (0 < k < n)%nat) -> In (xs (map tp ks)) (singles n).
Proof.
  intros L B. destruct ks as [|k [|k' ks]]; [now left| |cbn [length] in L; lia]. cbn [map xs fold_right]. rewrite N.lxor_0_r. right.
  apply in_map, in_seq. specialize (B k (or_introl eq_refl)). lia.
Qed.
Lemma xs_app a b : xs (a ++ b) = N.lxor (xs a) (xs b).
Proof. induction a as [|x a IH]; [reflexivity|]. cbn [app]. change (N.lxor x (xs (a ++ b)) = N.lxor (N.lxor x (xs a)) (xs b)). now rewrite IH, N.lxor_assoc. Qed.
Lemma split_steps m ks : xs (map tp ks) = N.lxor (xs (map tp (firstn m ks))) (xs (map tp (skipn m ks))).
Proof. rewrite <- xs_app, <- map_app, firstn_skipn. reflexivity. Qed.
Lemma in_doubles n ks : (length ks <= 2)%nat -> (forall k, In k ks -> (0 < k < n)%nat) -> In (xs (map tp ks)) (doubles (singles n)).
Proof.
  intros L B. rewrite (split_steps 1). apply doubles_spec; apply in_singles.
  - rewrite firstn_length. lia.
  - intros k I. apply B. rewrite <- (firstn_skipn 1 ks). apply in_app_iff. now left.
  - rewrite skipn_length. lia.
  - intros k I. apply B. rewrite <- (firstn_skipn 1 ks). apply in_app_iff. now right.
Qed.
Local Close Scope N_scope.

(** ** Detection *)
Section Detection.
Context {cfg : Cfg}.
(** [received] differs from [sent] at most in the given bits *)
Definition differs_at_most (flips : list nat) (sent received : bytes) : Prop :=
  forall i, ~ In i flips -> frame_bit sent i = frame_bit received i.
Lemma few_bits f1 f2 flips :
  wf_bytes f1 -> wf_bytes f2 -> length f1 = length f2 -> differs_at_most flips f1 f2 -> f1 <> f2 ->
  (exists body, strip_and_validate_fcs f1 = Ok body) ->
  (forall ks, length ks < length flips -> (forall k, In k ks -> 0 < k < 8 * length f1) -> xs (map tp ks) <> 1%N) ->
  exists e, strip_and_validate_fcs f2 = Err e.
Proof.
  intros W1 W2 L Hb N [body E1] K.
  pose proof (strip_fcs_cases f1 W1) as C1. rewrite E1 in C1.
  pose proof (strip_fcs_cases f2 W2) as C2.
  destruct (strip_and_validate_fcs f2) as [body2|e|]; [exfalso|eauto|exfalso].
  2:{ rewrite <- L, C1, app_length, le_bytes_length in C2. lia. }
  assert (R : forall b, wf_bytes (b ++ le_bytes 4 (crc32 b)) ->
            crc_bytes crc_ones (b ++ le_bytes 4 (crc32 b)) = crc_residue).
  { intros b Hw. apply wf_bytes_app in Hw as [Hw _].
    apply residue_iff; [exact Hw|apply le_bytes_wf|apply le_bytes_length|].
    apply le_val_bytes_small. exact (crc32_bound b Hw). }
  pose proof (R body) as R1. rewrite <- C1 in R1. specialize (R1 W1).
  pose proof (R body2) as R2. rewrite <- C2 in R2. specialize (R2 W2).
  rewrite crc_bytes_val in R1, R2 by assumption. rewrite <- L in R2.
  set (x := le_val f1) in *. set (y := le_val f2) in *.
  assert (Z : N.lxor x y <> 0%N).
  { intros E. apply N.lxor_eq in E. apply N. unfold x, y in E. rewrite <- (le_bytes_val f1 W1), <- (le_bytes_val f2 W2).
    now rewrite L, E. }
  assert (B : (N.lxor x y < 2 ^ N.of_nat (8 * length f1))%N).
  { assert (P : (2 ^ N.of_nat (8 * length f1) = 256 ^ N.of_nat (length f1))%N).
    { rewrite Nat2N.inj_mul, N.pow_mul_r. reflexivity. }
    apply N.log2_lt_pow2; [lia|]. eapply N.le_lt_trans; [apply N.log2_lxor|].
    pose proof (le_val_bound f1 W1) as X. pose proof (le_val_bound f2 W2) as Y. rewrite <- L in Y. rewrite <- P in X, Y. fold x in X. fold y in Y.
    assert (NZ : 0 < length f1) by (rewrite C1, app_length, le_bytes_length; lia).
    apply N.max_lub_lt.
    - destruct (N.eq_dec x 0) as [Q|Q]; [rewrite Q; cbn; lia|]. apply N.log2_lt_pow2; [lia|exact X].
    - destruct (N.eq_dec y 0) as [Q|Q]; [rewrite Q; cbn; lia|]. apply N.log2_lt_pow2; [lia|exact Y]. }
  destruct (few_steps (8 * length f1) (N.lxor x y) flips) as (ks & A1 & A2 & A3).
  - intros j T. exists (N.to_nat j). split; [|apply N2Nat.id].
    destruct (in_dec Nat.eq_dec (N.to_nat j) flips) as [I|I]; [exact I|]. apply Hb in I.
    rewrite N.lxor_spec in T. unfold x, y in T. rewrite <- (N2Nat.id j), !le_val_testbit, I, xorb_nilpotent in T by assumption. discriminate.
  - exact B.
  - exact Z.
  - replace (N.lxor x y) with (N.lxor (N.lxor crc_ones x) (N.lxor crc_ones y)).
    + rewrite iter_crc_lxor, R1, R2. apply N.lxor_nilpotent.
    + apply N.bits_inj. intros i. rewrite !N.lxor_spec. destruct (N.testbit crc_ones i), (N.testbit x i), (N.testbit y i); reflexivity.
  - exact (K ks A1 A2 A3).
Qed.
Lemma two_bits f1 f2 flips :
  wf_bytes f1 -> wf_bytes f2 -> length f1 = length f2 -> differs_at_most flips f1 f2 -> f1 <> f2 ->
  (exists body, strip_and_validate_fcs f1 = Ok body) ->
  length flips <= 2 -> (N.of_nat (length f1) < 2 ^ 29)%N -> exists e, strip_and_validate_fcs f2 = Err e.
Proof.
  intros W1 W2 L Hb N A F B. apply (few_bits f1 f2 flips); auto. intros ks Lk P E.
  destruct ks as [|k [|k' ks]]; [discriminate E| |cbn [length] in Lk; lia].
  cbn [map xs fold_right] in E. rewrite N.lxor_0_r in E. destruct (P k (or_introl eq_refl)) as [P1 P2].
  apply (no_short_cycle k); [exact P1| |exact E]. unfold order. change (2 ^ 29)%N with 536870912%N in B. change (2 ^ 32 - 1)%N with 4294967295%N. lia.
Qed.
Lemma three_bits f1 f2 flips :
  wf_bytes f1 -> wf_bytes f2 -> length f1 = length f2 -> differs_at_most flips f1 f2 -> f1 <> f2 ->
  (exists body, strip_and_validate_fcs f1 = Ok body) ->
  length flips <= 3 -> (N.of_nat (length f1) <= 11454)%N -> exists e, strip_and_validate_fcs f2 = Err e.
Proof.
  intros W1 W2 L Hb N A F B. apply (few_bits f1 f2 flips); auto. intros ks Lk P E.
  destruct ks as [|a [|b [|c ks]]]; [discriminate E| | |cbn [length] in Lk; lia].
  - cbn [map xs fold_right] in E. rewrite N.lxor_0_r in E. destruct (P a (or_introl eq_refl)) as [P1 P2].
    apply (no_short_cycle a); [exact P1| |exact E]. unfold order. change (2 ^ 32 - 1)%N with 4294967295%N. lia.
  - cbn [map xs fold_right] in E. rewrite N.lxor_0_r in E.
    pose proof (P a (or_introl eq_refl)) as Pa. pose proof (P b (or_intror (or_introl eq_refl))) as Pb.
    apply (no_pair_spec 91632 no_pair_mpdu a b); [lia|lia|exact E].
Qed.
Lemma five_bits f1 f2 flips :
  wf_bytes f1 -> wf_bytes f2 -> length f1 = length f2 -> differs_at_most flips f1 f2 -> f1 <> f2 ->
  (exists body, strip_and_validate_fcs f1 = Ok body) ->
  length flips <= 5 -> length f1 <= 37 -> exists e, strip_and_validate_fcs f2 = Err e.
Proof.
  intros W1 W2 L Hb N A F B. apply (few_bits f1 f2 flips); auto. intros ks Lk P E. rewrite (split_steps 2) in E. revert E.
  apply (apart_spec (doubles (singles 296)) (doubles (singles 296)) no_quadruple).
  - apply in_doubles; [rewrite firstn_length; lia|]. intros k I. enough (0 < k < 8 * length f1) by lia. apply P.
    rewrite <- (firstn_skipn 2 ks). apply in_app_iff. now left.
  - apply in_doubles; [rewrite skipn_length; lia|]. intros k I. enough (0 < k < 8 * length f1) by lia. apply P.
    rewrite <- (firstn_skipn 2 ks). apply in_app_iff. now right.
Qed.
End Detection.

(** deciding [differs_at_most] for concrete frames *)
Definition differsb (flips : list nat) (a b : bytes) : bool :=
  forallb (fun i => existsb (Nat.eqb i) flips || Bool.eqb (frame_bit a i) (frame_bit b i)) (seq 0 (8 * length a)).
Lemma differsb_spec flips a b : length a = length b -> differsb flips a b = true -> differs_at_most flips a b.
Proof.
  intros L D i I. destruct (Nat.lt_ge_cases i (8 * length a)) as [H|H].
  - unfold differsb in D. rewrite forallb_forall in D. specialize (D i (proj2 (in_seq _ _ _) (conj (Nat.le_0_l i) H))).
    apply orb_true_iff in D as [D|D]; [|now apply Bool.eqb_prop in D].
    exfalso. apply I. apply existsb_exists in D as (x & Hx & Q). apply Nat.eqb_eq in Q. now subst.
  - unfold frame_bit. assert (length a <= i / 8) by (apply Nat.div_le_lower_bound; lia).
    rewrite !nth_overflow by lia. reflexivity.
Qed.
(** changes that are not noticed, just beyond the lengths above *)
Definition undetected {cfg : Cfg} (n : nat) (flips : list nat) : Prop := exists sent received,
  wf_bytes sent /\ wf_bytes received /\ length sent = n /\ length received = n /\ differs_at_most flips sent received /\ sent <> received /\
  (exists body, strip_and_validate_fcs sent = Ok body) /\ (exists body, strip_and_validate_fcs received = Ok body).
Lemma five_in_38 {cfg : Cfg} : undetected 38 [3; 148; 186; 214; 303].
Proof.
  set (b1 := repeat 0%N 34). set (b2 := ([8] ++ repeat 0 17 ++ [16] ++ repeat 0 4 ++ [4] ++ repeat 0 2 ++ [64] ++ repeat 0 7)%N).
  exists (b1 ++ [42; 108; 113; 65]%N), (b2 ++ [42; 108; 113; 193]%N).
  split; [apply wf_bytesb_spec; vm_compute; reflexivity|]. split; [apply wf_bytesb_spec; vm_compute; reflexivity|].
  split; [reflexivity|]. split; [reflexivity|]. split; [apply differsb_spec; vm_compute; reflexivity|].
  split; [intros E; apply (f_equal (fun x => nth 0 x 0%N)) in E; discriminate E|].
  assert (C1 : le_bytes 4 (crc32 b1) = [42; 108; 113; 65]%N) by (vm_compute; reflexivity).
  assert (C2 : le_bytes 4 (crc32 b2) = [42; 108; 113; 193]%N) by (vm_compute; reflexivity).
  split; [exists b1; rewrite <- C1|exists b2; rewrite <- C2]; apply strip_fcs_ok; apply wf_bytesb_spec; vm_compute; reflexivity.
Qed.
Lemma four_in_376 {cfg : Cfg} : undetected 376 [1; 141; 792; 3007].
Proof.
  set (b1 := repeat 0%N 372). set (b2 := ([2] ++ repeat 0 16 ++ [32] ++ repeat 0 81 ++ [1] ++ repeat 0 272)%N).
  exists (b1 ++ [132; 225; 141; 99]%N), (b2 ++ [132; 225; 141; 227]%N).
  split; [apply wf_bytesb_spec; vm_compute; reflexivity|]. split; [apply wf_bytesb_spec; vm_compute; reflexivity|].
  split; [reflexivity|]. split; [reflexivity|]. split; [apply differsb_spec; vm_compute; reflexivity|].
  split; [intros E; apply (f_equal (fun x => nth 0 x 0%N)) in E; discriminate E|].
  assert (C1 : le_bytes 4 (crc32 b1) = [132; 225; 141; 99]%N) by (vm_compute; reflexivity).
  assert (C2 : le_bytes 4 (crc32 b2) = [132; 225; 141; 227]%N) by (vm_compute; reflexivity).
  split; [exists b1; rewrite <- C1|exists b2; rewrite <- C2]; apply strip_fcs_ok; apply wf_bytesb_spec; vm_compute; reflexivity.
Qed.
Lemma detection_limits {cfg : Cfg} n flips : (n, flips) = (38, [3; 148; 186; 214; 303]) \/ (n, flips) = (376, [1; 141; 792; 3007]) -> undetected n flips.
Proof. intros [E|E]; injection E as -> ->; [exact five_in_38|exact four_in_376]. Qed.
