(** Proofs about the traffic indication map: constructors and the element. *)
From Coq Require Import Sorted.
From Verif Require Import Base BaseFacts SpecBase Bits Layouts BitsFacts Common CommonFacts Elements SpecElements ElementsFacts
  ElementTypes SpecElementTypes ElementTypesFacts Tim SpecTim TimFacts.

Section Element.
Context {cfg : Cfg}.
(** ** reading *)
Lemma rd_tim_bitmap_eq c rest : rd_tim_bitmap (c :: rest) = Ok (mkTB c (Some (BSlice rest)), S (length rest)).
Proof.
  unfold rd_tim_bitmap, gread. rewrite end_bad_lt by (cbn [length]; lia). cbn [skipn rd_u8 rbind].
  rewrite slice_from_ok by (cbn [length]; lia). reflexivity.
Qed.
Definition parsed_bitmap (rest : bytes) : option (N * bytes) :=
  match rest with [] => None | c :: bs => Some (c, bs) end.
Lemma rd_tim_eq count period rest :
  rd_tim (count :: period :: rest)
  = if (period <? count)%N then Err BadInput else Ok (tim_value count period (parsed_bitmap rest), 2 + length rest).
Proof.
  unfold rd_tim, gread at 1. rewrite end_bad_lt by (cbn [length]; lia). cbn [skipn rd_u8 rbind Nat.add].
  unfold gread at 1. rewrite end_bad_lt by (cbn [length]; lia). cbn [skipn rd_u8 rbind Nat.add].
  unfold check_dtim_parameters. destruct (period <? count)%N; [reflexivity|]. cbn [rbind].
  unfold gread_ok, gread. destruct rest as [|c bs].
  - destruct (end_bad 2 (length [count; period])) eqn:E.
    + reflexivity.
    + cbn [skipn]. unfold rd_tim_bitmap, gread. destruct (end_bad 0 (length [])); reflexivity.
  - rewrite end_bad_lt by (cbn [length]; lia). cbn [skipn]. rewrite rd_tim_bitmap_eq. cbn [rbind]. reflexivity.
Qed.
Lemma rd_tim_short bs : length bs < 2 -> exists e, rd_tim bs = Err e.
Proof.
  intros L. unfold rd_tim, gread. destruct bs as [|a [|b bs]]; cbn [length] in *; [| |lia].
  - destruct (end_bad 0 0); cbn; eauto.
  - rewrite end_bad_lt by lia. cbn [skipn rd_u8 rbind Nat.add]. destruct (end_bad 1 1); cbn; eauto.
Qed.
Lemma rd_tim_NP : NoPanic rd_tim.
Proof.
  intros bs. destruct bs as [|a [|b bs]].
  - destruct (rd_tim_short [] (Nat.lt_0_succ _)) as [e ->]. discriminate.
  - destruct (rd_tim_short [a] (Nat.lt_succ_diag_r _)) as [e ->]. discriminate.
  - rewrite rd_tim_eq. destruct (_ <? _)%N; discriminate.
Qed.
Lemma enc_tim_parsed count period rest : enc_tim count period (parsed_bitmap rest) = count :: period :: rest.
Proof. now destruct rest. Qed.
Lemma rd_tim_spec bs t n : rd_tim bs = Ok (t, n) <->
  exists count period bitmap, bs = enc_tim count period bitmap /\ t = tim_value count period bitmap /\
    n = length bs /\ (count <= period)%N.
Proof.
  split.
  - intros E. destruct bs as [|a [|b bs]].
    + destruct (rd_tim_short [] (Nat.lt_0_succ _)) as [e E']. congruence.
    + destruct (rd_tim_short [a] (Nat.lt_succ_diag_r _)) as [e E']. congruence.
    + rewrite rd_tim_eq in E. destruct (N.ltb_spec b a); [discriminate|]. injection E as <- <-.
      exists a, b, (parsed_bitmap bs). now rewrite enc_tim_parsed.
  - intros (c & p & bm & -> & -> & -> & L). unfold enc_tim.
    destruct bm as [[ctl b]|]; cbn [app]; rewrite rd_tim_eq; (destruct (N.ltb_spec p c); [lia|]); reflexivity.
Qed.

(** ** writing *)
Lemma bm_write_W b bs : bm_bytes b = Ok bs -> Writes (bm_write b) bs.
Proof.
  intros E. destruct b; cbn [bm_bytes] in E.
  - injection E as <-. apply wr_bytes_W.
  - eapply Writes_ext; [|apply pwrite0_W, (wr_bytes_W bs)].
    intros buf. cbn [bm_write bm_bytes]. rewrite E. reflexivity.
  - eapply Writes_ext; [|apply pwrite0_W, (wr_bytes_W bs)].
    intros buf. cbn [bm_write bm_bytes]. rewrite E. reflexivity.
Qed.
Lemma wr_u8_W v : (v < 256)%N -> Writes (wr_u8 v) [v].
Proof. intros H. unfold wr_u8. cbn [le_bytes]. rewrite N.mod_small by assumption. apply wr_bytes_W. Qed.
Lemma tb_write_W t b bs : tb_bitmap t = Some b -> bm_bytes b = Ok bs -> (tb_control t < 256)%N ->
  Writes (tb_write t) (tb_control t :: bs).
Proof.
  intros B D C. unfold tb_write. rewrite B.
  eapply Writes_eq; [apply wseq_W; constructor; [now apply wr_u8_W|constructor; [exact (bm_write_W b bs D)|constructor]]|].
  cbn [concat app]. now rewrite app_nil_r.
Qed.
Lemma wr_tim_W t count period bitmap : tim_shows t count period bitmap -> wf_bitmap bitmap ->
  (count <= period)%N -> (period < 256)%N -> Writes (wr_tim t) (enc_tim count period bitmap).
Proof.
  intros (<- & <- & S) W L P. unfold wr_tim, check_dtim_parameters.
  destruct (N.ltb_spec (te_period t) (te_count t)); [lia|]. cbn [rbind].
  destruct bitmap as [[ctl bs]|], (te_bitmap t) as [tb|]; try contradiction.
  - destruct S as (<- & b & B & D). destruct W as [C W].
    unfold tb_is_empty. rewrite B, andb_false_r. cbn [app].
    eapply Writes_eq; [apply wseq_W; constructor;
      [apply wr_u8_W; lia|constructor; [apply wr_u8_W; lia|constructor; [now apply (tb_write_W tb b bs)|constructor]]]|].
    cbn [concat app enc_tim]. now rewrite app_nil_r.
  - cbn [app]. eapply Writes_eq; [apply wseq_W; constructor; [apply wr_u8_W; lia|constructor; [apply wr_u8_W; lia|constructor]]|].
    reflexivity.
Qed.
Lemma wr_tim_refuses t buf : (te_period t < te_count t)%N -> wr_tim t buf = Err BadInput.
Proof. intros H. unfold wr_tim, check_dtim_parameters. destruct (N.ltb_spec (te_period t) (te_count t)); [reflexivity|lia]. Qed.
Lemma bytes_eqb_refl bs : bytes_eqb bs bs = true.
Proof. unfold bytes_eqb. now destruct (list_eq_dec N.eq_dec bs bs). Qed.
Lemma te_eq_shows t count period bitmap : tim_shows t count period bitmap ->
  te_eq t (tim_value count period bitmap) = Ok true.
Proof.
  intros (<- & <- & S). unfold te_eq, tim_value. cbn [te_count te_period te_bitmap]. rewrite !N.eqb_refl. cbn [andb negb].
  destruct bitmap as [[ctl bs]|], (te_bitmap t) as [tb|]; try contradiction; [|reflexivity].
  destruct S as (<- & b & B & D). unfold tb_eq. cbn [tb_control tb_bitmap]. rewrite N.eqb_refl. cbn [negb].
  rewrite B, D. cbn [rbind bm_bytes]. now rewrite bytes_eqb_refl.
Qed.
(** The bitmap is not a [StaticBitmap]. *)
Definition not_static (t : TIM) : Prop :=
  match te_bitmap t with Some (mkTB _ (Some (BStatic _ _))) => False | _ => True end.
Lemma tim_announces t count period bitmap : tim_shows t count period bitmap -> not_static t ->
  et_measure TIMElement t = length (enc_tim count period bitmap).
Proof.
  intros (<- & <- & S) NS. cbn [TIMElement et_measure]. unfold tim_measure, not_static in *.
  destruct bitmap as [[ctl bs]|], (te_bitmap t) as [[c bm]|]; try contradiction; [|reflexivity].
  destruct S as (_ & b & B & D). cbn [tb_bitmap] in B. subst bm. unfold tb_measure. cbn [tb_bitmap].
  destruct b; cbn [bm_measure rbind]; [| destruct NS |].
  - cbn [bm_bytes] in D. injection D as ->. reflexivity.
  - rewrite D. reflexivity.
Qed.
Lemma tim_announces_static count period ctl array n bs : bm_bytes (BStatic array n) = Ok bs ->
  S (et_measure TIMElement (mkTIM count period (Some (mkTB ctl (Some (BStatic array n))))))
  = length (enc_tim count period (Some (ctl, bs))).
Proof.
  intros D. cbn [TIMElement et_measure tim_measure te_bitmap tb_measure tb_bitmap bm_measure rbind enc_tim app length]. cbn [bm_bytes] in D. unfold slice_to in D. destruct (Nat.leb_spec (S n) (length array)); [|discriminate].
  replace bs with (firstn (S n) array) by congruence. rewrite firstn_length. lia.
Qed.
Lemma tim_round_trip t count period bitmap : tim_shows t count period bitmap -> wf_bitmap bitmap ->
  (count <= period)%N -> (period < 256)%N ->
  Writes (wr_tim t) (enc_tim count period bitmap) /\
  ReadsAll rd_tim (enc_tim count period bitmap) (tim_value count period bitmap) /\
  te_eq t (tim_value count period bitmap) = Ok true.
Proof.
  intros S W L P. split; [now apply wr_tim_W|]. split; [|now apply te_eq_shows].
  apply rd_tim_spec. eauto 10.
Qed.
(** The indicator without a bitmap: one byte is announced for two. *)
Lemma tim_indicator_only count period ctl : (ctl < 256)%N -> spec_group ctl = true -> (count <= period)%N -> (period < 256)%N ->
  let t := mkTIM count period (Some (mkTB ctl None)) in
  Writes (wr_tim t) [count; period; ctl; 0]%N /\ et_measure TIMElement t = 3.
Proof.
  intros C G L P t. unfold t. split.
  - unfold wr_tim, check_dtim_parameters. cbn [te_period te_count te_bitmap].
    destruct (N.ltb_spec period count); [lia|]. cbn [rbind].
    unfold tb_is_empty, tb_traffic. cbn [tb_control tb_bitmap]. rewrite tbc_traffic_spec, G. cbn [negb andb app].
    eapply Writes_eq; [apply wseq_W; constructor;
      [apply wr_u8_W; lia|constructor; [apply wr_u8_W; lia|constructor; [|constructor]]]|].
    + unfold tb_write, tb_traffic. cbn [tb_control tb_bitmap]. rewrite tbc_traffic_spec, G.
      eapply Writes_eq; [apply wseq_W; constructor; [apply wr_u8_W; lia|constructor; [apply wr_u8_W; lia|constructor]]|].
      reflexivity.
    + reflexivity.
  - cbn [TIMElement et_measure]. unfold tim_measure. cbn [te_bitmap]. unfold tb_measure, tb_traffic. cbn [tb_bitmap tb_control].
    rewrite tbc_traffic_spec, G. reflexivity.
Qed.
End Element.

(** ** constructors *)
Section Construct.
Context {cfg : Cfg}.
Lemma firstn_wf_slice n k array : wf_bytes array -> wf_bytes (firstn n (skipn k array)).
Proof. intros W. now apply wf_firstn, wf_skipn. Qed.
(** [tim_bitmap![...]] *)
Lemma tim_bitmap_list_spec aids : Forall (fun a => a <= 2007) aids -> (exists a, In a aids /\ a <> 0) ->
  exists tb b bs, tim_bitmap_list aids = Ok tb /\ tb_bitmap tb = Some b /\ bm_bytes b = Ok bs /\
    (match b with BConst _ _ _ => True | _ => False end) /\
    (tb_control tb < 256)%N /\ wf_bytes bs /\ spec_n1 (tb_control tb) + length bs <= 251 /\
    (spec_group (tb_control tb) = true <-> In 0 aids) /\
    (forall a, indicates (tb_control tb) bs a <-> In a aids /\ a <> 0) /\
    (forall a, In a aids -> a <> 0 -> 8 * spec_n1 (tb_control tb) <= a) /\
    (exists a, In a aids /\ a <> 0 /\ spec_n1 (tb_control tb) = 2 * (a / 16)).
Proof.
  intros F (a0 & I0 & Z0). destruct (built_aids aids F) as (array & n1 & n2 & _ & E & B).
  pose proof (low_bound _ _ (built_low _ _ _ _ B) F) as L1.
  pose proof (high_bound _ _ (built_high _ _ _ _ B) F) as L2.
  assert (L12 : n1 <= n2).
  { destruct (built_low _ _ _ _ B) as [Lo _]. destruct (built_high _ _ _ _ B) as [Hi _].
    specialize (Lo _ I0 Z0). specialize (Hi _ I0). lia. }
  assert (F' := F). rewrite Forall_forall in F'.
  unfold tim_bitmap_list. rewrite E. cbn [rbind]. rewrite land_even by lia.
  rewrite tbc_with_n1_spec by lia. cbn [rbind].
  set (g := existsb (fun aid => aid =? 0) aids).
  assert (N1 : spec_n1 (control_of g (2 * (n1 / 2))) = 2 * (n1 / 2)) by (rewrite control_of_n1; lia).
  do 3 eexists. split; [reflexivity|]. cbn [tb_bitmap tb_control]. split; [reflexivity|].
  split; [cbn [bm_bytes]; apply array_slice; [lia|rewrite (built_len _ _ _ _ B); lia]|].
  split; [exact I|]. split; [apply control_of_small; lia|]. split; [apply firstn_wf_slice, (built_wf _ _ _ _ B)|].
  rewrite N1. split; [rewrite firstn_length, skipn_length, (built_len _ _ _ _ B); lia|].
  split; [|split; [|split]].
  - rewrite control_of_group. unfold g. rewrite existsb_exists. split.
    + intros (x & I & Q). apply Nat.eqb_eq in Q. now subst.
    + intros I. exists 0. split; [assumption|reflexivity].
  - intros a. unfold indicates. rewrite N1, slice_bits, (built_bits _ _ _ _ B).
    destruct (built_low _ _ _ _ B) as [Lo _]. destruct (built_high _ _ _ _ B) as [Hi _]. split.
    + intros [R Q]. rewrite !andb_true_iff, existsb_in in Q. split; [apply Q|lia].
    + intros [I Z]. specialize (Lo _ I Z). specialize (Hi _ I). specialize (F' _ I). cbn beta in F'.
      split; [lia|]. rewrite !andb_true_iff, existsb_in. split; [lia|assumption].
  - intros a I Z. destruct (built_low _ _ _ _ B) as [Lo _]. specialize (Lo _ I Z). lia.
  - destruct (built_low _ _ _ _ B) as [_ [(a & I & Z & ->)|E1]].
    + exists a. split; [assumption|]. split; [assumption|]. lia.
    + exfalso. lia.
Qed.
Lemma set_bits_spec l : forall array, Forall (fun a => a / 8 < length array) l -> wf_bytes array -> exists array',
  set_bits array l = Ok array' /\ length array' = length array /\ wf_bytes array' /\
  forall k, array_bit array' k = array_bit array k || existsb (Nat.eqb k) l.
Proof.
  induction l as [|i l IH]; intros array F W.
  - exists array. cbn. split; [reflexivity|]. split; [reflexivity|]. split; [assumption|]. intros k. now rewrite orb_false_r.
  - inversion F as [|? ? A F']; subst. destruct (set_bit_at_spec array i A W) as (a1 & E1 & L1 & W1 & B1).
    destruct (IH a1) as (a2 & E2 & L2 & W2 & B2); [now rewrite L1|assumption|].
    exists a2. cbn [set_bits]. rewrite E1. cbn [rbind]. split; [assumption|]. split; [lia|]. split; [assumption|].
    intros k. rewrite B2, B1. cbn [existsb]. now rewrite orb_assoc.
Qed.
(** [tim_bitmap!(min => max)] *)
Lemma tim_bitmap_range_spec min max : min <= max -> max <= 2007 ->
  exists tb b bs, tim_bitmap_range min max = Ok tb /\ tb_bitmap tb = Some b /\ bm_bytes b = Ok bs /\
    (match b with BConst _ _ _ => True | _ => False end) /\
    (tb_control tb < 256)%N /\ wf_bytes bs /\ spec_n1 (tb_control tb) + length bs <= 251 /\
    (spec_group (tb_control tb) = true <-> min = 0) /\
    (forall a, indicates (tb_control tb) bs a <-> min <= a <= max /\ a <> 0) /\
    spec_n1 (tb_control tb) = 2 * (min / 16).
Proof.
  intros L M. unfold tim_bitmap_range. destruct (Nat.ltb_spec 2007 max); [lia|].
  destruct (set_bits_spec (seq min (S max - min)) (repeat 0%N 251)) as (array & E & Len & W & Bits).
  { apply Forall_forall. intros a I. apply in_seq in I. rewrite repeat_length. lia. }
  { apply (built_wf _ _ _ _ built_start). }
  rewrite E. cbn [rbind]. rewrite repeat_length in Len. rewrite land_even by lia. rewrite tbc_with_n1_spec by lia. cbn [rbind].
  assert (N1 : spec_n1 (control_of (min =? 0) (2 * (min / 8 / 2))) = 2 * (min / 16)) by (rewrite control_of_n1; lia).
  do 3 eexists. split; [reflexivity|]. cbn [tb_bitmap tb_control]. split; [reflexivity|].
  split; [cbn [bm_bytes]; apply array_slice; lia|].
  split; [exact I|]. split; [apply control_of_small; lia|]. split; [apply firstn_wf_slice, W|].
  rewrite N1. split; [rewrite firstn_length, skipn_length; lia|].
  split; [rewrite control_of_group; apply Nat.eqb_eq|]. split; [|reflexivity].
  intros a. unfold indicates. rewrite N1. replace (2 * (min / 8 / 2)) with (2 * (min / 16)) by lia.
  rewrite slice_bits, Bits, repeat_bit. cbn [orb]. rewrite !andb_true_iff, existsb_in, in_seq. lia.
Qed.

(** [new_static] *)
Lemma static_built group aids :
  length aids <= 2007 -> Forall (fun a => a <= 2007) (numbers aids) ->
  exists array n1 n2, built (numbers aids) array n1 n2 /\ n1 <= 251 /\ n2 <= 250 /\
    exists array', tb_new_static group aids = Ok (mkTB (control_of group n1) (Some (BStatic array' n2))) /\
      length array' = 251 /\ wf_bytes array' /\
      forall k, array_bit array' k = array_bit array k || ((n1 =? 0) && group && (k =? 1)).
Proof.
  intros Len F. destruct (built_aids (numbers aids) F) as (array & n1 & n2 & E & _ & B).
  pose proof (low_bound _ _ (built_low _ _ _ _ B) F) as L1.
  pose proof (high_bound _ _ (built_high _ _ _ _ B) F) as L2.
  exists array, n1, n2. split; [assumption|]. split; [assumption|]. split; [assumption|].
  unfold tb_new_static. rewrite firstn_all2 by assumption. unfold numbers in E. rewrite E. cbn [rbind].
  destruct ((n1 =? 0) && group) eqn:G.
  - destruct (set_bit_at_spec array 1) as (array' & E' & L' & W' & B').
    { rewrite (built_len _ _ _ _ B). change (1 / 8) with 0. lia. } { apply (built_wf _ _ _ _ B). }
    change (1 / 8) with 0 in E'. change (1 mod 8) with 1 in E'. rewrite E'. cbn [rbind].
    rewrite tbc_with_n1_spec by lia. cbn [rbind]. exists array'. split; [reflexivity|].
    rewrite L', (built_len _ _ _ _ B). split; [reflexivity|]. split; [assumption|exact B'].
  - cbn [rbind]. rewrite tbc_with_n1_spec by lia. cbn [rbind]. exists array. split; [reflexivity|].
    split; [apply (built_len _ _ _ _ B)|]. split; [apply (built_wf _ _ _ _ B)|]. intros k. now rewrite orb_false_r.
Qed.
(** the bit numbers of what [new_static] stores, counted from its own first byte *)
Lemma static_reports group aids :
  length aids <= 2007 -> Forall (fun a => 1 <= a <= 2007) (numbers aids) ->
  exists tb b bs n1, tb_new_static group aids = Ok tb /\ tb_bitmap tb = Some b /\ bm_bytes b = Ok bs /\
    (match b with BStatic _ _ => True | _ => False end) /\
    tb_control tb = control_of group n1 /\ wf_bytes bs /\ n1 < 256 /\ low_byte (numbers aids) n1 /\ length bs <= 251 /\
    (forall k, virtual_bit 0 bs k = existsb (Nat.eqb k) (numbers aids) || ((n1 =? 0) && group && (k =? 1))).
Proof.
  intros Len F. assert (F' : Forall (fun a => a <= 2007) (numbers aids)).
  { eapply Forall_impl; [|exact F]. cbn beta. lia. }
  destruct (static_built group aids Len F') as (array & n1 & n2 & B & L1 & L2 & array' & E & La & W & Bits).
  exists (mkTB (control_of group n1) (Some (BStatic array' n2))), (BStatic array' n2), (firstn (S n2) array'), n1.
  split; [assumption|]. split; [reflexivity|].
  split; [cbn [bm_bytes]; apply slice_to_ok; lia|]. split; [exact I|]. split; [reflexivity|].
  split; [now apply wf_firstn|]. split; [lia|]. split; [apply (built_low _ _ _ _ B)|].
  split; [rewrite firstn_length; lia|]. intros k.
  pose proof (slice_bits array' 0 n2 k) as S. rewrite Nat.sub_0_r in S. cbn [skipn] in S. rewrite S. clear S.
  rewrite Bits, (built_bits _ _ _ _ B). cbn [Nat.leb andb].
  destruct (Nat.leb_spec (k / 8) n2) as [|G]; [reflexivity|]. cbn [andb].
  destruct (existsb (Nat.eqb k) (numbers aids)) eqn:X.
  - apply existsb_in in X. destruct (built_high _ _ _ _ B) as [Hi _]. specialize (Hi _ X). lia.
  - destruct (Nat.eqb_spec k 1) as [->|]; [|now rewrite andb_false_r]. change (1 / 8) with 0 in G. lia.
Qed.
End Construct.
Section Received.
Context {cfg : Cfg}.
Lemma received_slice tb b bs : tb_bitmap tb = Some b -> bm_bytes b = Ok bs -> (tb_control tb < 256)%N -> wf_bytes bs ->
  received_alone tb (mkTB (tb_control tb) (Some (BSlice bs))) /\
  (match b with BStatic _ _ => False | _ => True end -> received tb (mkTB (tb_control tb) (Some (BSlice bs)))).
Proof.
  intros B D C W.
  assert (R : forall count period, (count <= period)%N -> (period < 256)%N ->
    tim_shows (mkTIM count period (Some tb)) count period (Some (tb_control tb, bs))).
  { intros count period _ _. split; [reflexivity|]. split; [reflexivity|]. cbn. split; [reflexivity|eauto]. }
  split.
  - intros count period L P. destruct (tim_round_trip _ _ _ _ (R _ _ L P) (conj C W) L P) as (X & Y & _). eauto.
  - intros NS count period L P. destruct (tim_round_trip _ _ _ _ (R _ _ L P) (conj C W) L P) as (X & Y & _).
    eexists. split; [exact X|]. split; [|exact Y]. apply (tim_announces _ _ _ _ (R _ _ L P)).
    unfold not_static. cbn. destruct tb as [c o]; cbn in *. subst o. destruct b; auto.
Qed.
Lemma reports_slice ctl bs : (ctl < 256)%N -> spec_n1 ctl + length bs <= 2048 ->
  reports (mkTB ctl (Some (BSlice bs))) (fun a => indicates ctl bs a /\ a <> 8 * spec_n1 ctl).
Proof. intros C L. exact (aid_iter_reports (mkTB ctl (Some (BSlice bs))) (BSlice bs) bs eq_refl eq_refl C L). Qed.

Lemma list_received aids low : Forall (fun a => a <= 2007) aids -> lowest aids low ->
  exists tb ctl bs, tim_bitmap_list aids = Ok tb /\ received tb (mkTB ctl (Some (BSlice bs))) /\
    (spec_group ctl = true <-> In 0 aids) /\
    (forall a, indicates ctl bs a <-> In a aids /\ a <> 0) /\
    reports (mkTB ctl (Some (BSlice bs))) (fun a => In a aids /\ a <> 0 /\ a <> 16 * (low / 16)).
Proof.
  intros F (I & Z & Lo).
  destruct (tim_bitmap_list_spec aids F (ex_intro _ low (conj I Z)))
    as (tb & b & bs & E & B & D & K & C & W & Len & G & Ind & N1 & a1 & I1 & Z1 & N1').
  exists tb, (tb_control tb), bs. split; [assumption|].
  split; [apply (received_slice tb b bs B D C W); now destruct b|]. split; [assumption|]. split; [assumption|].
  eapply reports_ext; [|apply reports_slice; [assumption|lia]].
  intros a. cbn beta. rewrite Ind. specialize (Lo _ I1 Z1). specialize (N1 _ I Z).
  replace (16 * (low / 16)) with (8 * spec_n1 (tb_control tb)) by lia. intuition.
Qed.
Lemma range_received min max : min <= max -> max <= 2007 ->
  exists tb ctl bs, tim_bitmap_range min max = Ok tb /\ received tb (mkTB ctl (Some (BSlice bs))) /\
    (spec_group ctl = true <-> min = 0) /\
    (forall a, indicates ctl bs a <-> min <= a <= max /\ a <> 0) /\
    reports (mkTB ctl (Some (BSlice bs))) (fun a => min <= a <= max /\ a <> 16 * (min / 16)).
Proof.
  intros L M. destruct (tim_bitmap_range_spec min max L M)
    as (tb & b & bs & E & B & D & K & C & W & Len & G & Ind & N1).
  exists tb, (tb_control tb), bs. split; [assumption|].
  split; [apply (received_slice tb b bs B D C W); now destruct b|]. split; [assumption|]. split; [assumption|].
  eapply reports_ext; [|apply reports_slice; [assumption|lia]].
  intros a. cbn beta. rewrite Ind, N1. lia.
Qed.
Lemma virtual_bit_shift n1 bs k : virtual_bit n1 bs k = (8 * n1 <=? k) && virtual_bit 0 bs (k - 8 * n1).
Proof.
  unfold virtual_bit. destruct (Nat.leb_spec (8 * n1) k).
  - replace (n1 <=? k / 8) with true by lia. cbn [andb Nat.leb].
    f_equal; [|f_equal; lia]. f_equal. lia.
  - replace (n1 <=? k / 8) with false by lia. reflexivity.
Qed.
(** What a bitmap made by [new_static] says after transmission. *)
Lemma static_received group aids low :
  length aids <= 2007 -> Forall (fun a => 1 <= a <= 2007) (numbers aids) -> lowest (numbers aids) low ->
  exists tb tb', tb_new_static group aids = Ok tb /\ received_alone tb tb' /\ tb_traffic tb' = group /\
    reports tb' (fun x => exists a, (In a (numbers aids) \/ group = true /\ low < 8 /\ a = 1) /\
                          x = a + 16 * (low / 16) /\ x <= 2007).
Proof.
  intros Len F (I & Z & Lo).
  destruct (static_reports group aids Len F) as (tb & b & bs & n1 & E & B & D & K & Ctl & W & L1 & LowB & Lb & Bits).
  assert (N1 : n1 = low / 8).
  { destruct LowB as [A [(a & Ia & Za & ->)|Q]].
    - specialize (A _ I Z). specialize (Lo _ Ia Za). lia.
    - specialize (A _ I Z). rewrite Forall_forall in F. specialize (F _ I). cbn beta in F. lia. }
  assert (C : (tb_control tb < 256)%N) by (rewrite Ctl; apply control_of_small; lia).
  assert (S1 : spec_n1 (tb_control tb) = 2 * (low / 16)) by (rewrite Ctl, control_of_n1; lia).
  exists tb, (mkTB (tb_control tb) (Some (BSlice bs))). split; [assumption|].
  split; [apply (received_slice tb b bs B D C W)|].
  split; [unfold tb_traffic; cbn [tb_control]; rewrite tbc_traffic_spec, Ctl; apply control_of_group|].
  assert (L2 : low <= 2007) by (rewrite Forall_forall in F; specialize (F _ I); cbn beta in F; lia).
  eapply reports_ext; [|apply reports_slice; [assumption|lia]].
  intros x. cbn beta. unfold indicates. rewrite S1, virtual_bit_shift, Bits, N1.
  rewrite andb_true_iff, orb_true_iff, existsb_in, !andb_true_iff, !Nat.eqb_eq, Nat.leb_le.
  rewrite Forall_forall in F. split.
  - intros ((R & V & [Q|Q]) & X).
    + exists (x - 8 * (2 * (low / 16))). split; [now left|]. lia.
    + exists 1. split; [right; split; [apply Q|lia]|]. lia.
  - intros (a & Q & -> & X). assert (1 <= a).
    { destruct Q as [Q|Q]; [apply F in Q; lia|lia]. }
    split; [|lia]. split; [lia|]. split; [lia|].
    replace (a + 16 * (low / 16) - 8 * (2 * (low / 16))) with a by lia.
    destruct Q as [Q|(-> & Q & ->)]; [now left|right]. split; [split; [lia|reflexivity]|reflexivity].
Qed.
Lemma static_exact group aids low :
  length aids <= 2007 -> Forall (fun a => 1 <= a <= 2007) (numbers aids) -> lowest (numbers aids) low ->
  low < 16 -> (group = false \/ 8 <= low \/ low = 1) ->
  exists tb tb', tb_new_static group aids = Ok tb /\ received_alone tb tb' /\ tb_traffic tb' = group /\
    reports tb' (fun x => In x (numbers aids)).
Proof.
  intros Len F Lo L G. destruct (static_received group aids low Len F Lo) as (tb & tb' & E & R & T & P).
  exists tb, tb'. split; [assumption|]. split; [assumption|]. split; [assumption|].
  eapply reports_ext; [|exact P]. intros x. cbn beta. replace (16 * (low / 16)) with 0 by lia.
  destruct Lo as (I & Z & Lo). rewrite Forall_forall in F. split.
  - intros (a & [Q|(-> & Q & ->)] & -> & X).
    + now rewrite Nat.add_0_r.
    + rewrite Nat.add_0_r. destruct G as [G|[G|G]]; [discriminate|lia|]. now subst.
  - intros Q. exists x. split; [now left|]. apply F in Q. lia.
Qed.
Lemma static_empty group : exists tb tb', tb_new_static group [] = Ok tb /\ received_alone tb tb' /\
  tb_traffic tb' = group /\ reports tb' (fun x => False).
Proof.
  destruct (static_reports group []) as (tb & b & bs & n1 & E & B & D & K & Ctl & W & L1 & LowB & Lb & Bits).
  { cbn. lia. } { constructor. }
  assert (N1 : n1 = 251) by (destruct LowB as [_ [(a & [] & _)|Q]]; exact Q).
  assert (C : (tb_control tb < 256)%N) by (rewrite Ctl; apply control_of_small; lia).
  exists tb, (mkTB (tb_control tb) (Some (BSlice bs))). split; [assumption|].
  split; [apply (received_slice tb b bs B D C W)|].
  split; [unfold tb_traffic; cbn [tb_control]; rewrite tbc_traffic_spec, Ctl; apply control_of_group|].
  pose proof (spec_n1_bound _ C).
  eapply reports_ext; [|apply reports_slice; [assumption|lia]].
  intros x. cbn beta. unfold indicates. rewrite virtual_bit_shift, Bits, N1. cbn [numbers map existsb orb Nat.eqb andb].
  rewrite andb_false_r. intuition discriminate.
Qed.
(** The announced length is one short, always. *)
Lemma static_length group aids tb count period :
  length aids <= 2007 -> Forall (fun a => 1 <= a <= 2007) (numbers aids) ->
  tb_new_static group aids = Ok tb -> (count <= period)%N -> (period < 256)%N -> exists body,
  Writes (wr_tim (mkTIM count period (Some tb))) body /\
  S (et_measure TIMElement (mkTIM count period (Some tb))) = length body.
Proof.
  intros Len F E L P.
  destruct (static_reports group aids Len F) as (tb' & b & bs & n1 & E' & B & D & K & Ctl & W & L1 & LowB & Lb & Bits).
  rewrite E in E'. injection E' as <-.
  assert (C : (tb_control tb < 256)%N) by (rewrite Ctl; apply control_of_small; lia).
  destruct b as [|array n|]; try contradiction. destruct tb as [ctl o]. cbn [tb_bitmap tb_control] in *. subst o.
  eexists. split.
  - apply (wr_tim_W _ count period (Some (ctl, bs))); [|split; assumption|assumption|assumption].
    split; [reflexivity|]. split; [reflexivity|]. cbn. split; [reflexivity|]. eexists. split; [reflexivity|exact D].
  - now apply tim_announces_static.
Qed.
(** received elements *)
Lemma received_reports bs t n tb : wf_bytes bs -> length bs <= 255 -> rd_tim bs = Ok (t, n) -> te_bitmap t = Some tb ->
  exists count period ctl map, bs = count :: period :: ctl :: map /\ tb = mkTB ctl (Some (BSlice map)) /\
    tb_traffic tb = spec_group ctl /\
    reports tb (fun a => indicates ctl map a /\ a <> 8 * spec_n1 ctl).
Proof.
  intros W L E B. apply rd_tim_spec in E as (c & p & bm & -> & -> & -> & Q).
  destruct bm as [[ctl map]|]; [|discriminate]. cbn in B. injection B as <-.
  exists c, p, ctl, map. split; [reflexivity|]. split; [reflexivity|]. split; [apply tbc_traffic_spec|].
  cbn [enc_tim app] in W. rewrite !wf_bytes_cons in W. cbn [enc_tim app length] in L.
  pose proof (spec_n1_bound ctl). apply reports_slice; [apply W|]. destruct W as (_ & _ & W & _). specialize (H W). lia.
Qed.
Lemma reports_exact ctl map : (ctl < 256)%N -> spec_n1 ctl + length map <= 2048 ->
  spec_n1 ctl = 0 \/ N.testbit (hd 0%N map) 0 = false ->
  reports (mkTB ctl (Some (BSlice map))) (indicates ctl map).
Proof.
  intros C L H. eapply reports_ext; [|apply reports_slice; assumption].
  intros a. cbn beta. split; [tauto|]. intros I. split; [assumption|]. intros ->. destruct I as [R V].
  unfold virtual_bit in V. apply andb_true_iff in V as [_ V].
  destruct H as [H|H]; [lia|].
  replace (8 * spec_n1 ctl / 8 - spec_n1 ctl) with 0 in V by lia.
  replace (8 * spec_n1 ctl mod 8) with 0 in V by lia. destruct map; cbn in *; congruence.
Qed.
Lemma new_raw_spec ctl map : (ctl < 256)%N -> exists x, tb_new_raw ctl (Some (BSlice map)) = Ok x /\
  ((x = None /\ 251 < spec_n1 ctl + length map) \/
   (x = Some (mkTB ctl (Some (BSlice map))) /\ spec_n1 ctl + length map <= 251)).
Proof.
  intros C. unfold tb_new_raw. cbn [bm_bytes rbind]. rewrite tbc_n1_spec by assumption.
  destruct (Nat.ltb_spec 251 (length map + spec_n1 ctl)); eexists; (split; [reflexivity|]); [left|right]; (split; [reflexivity|lia]).
Qed.
Lemma aid_iter_oversized : overflow_checks = true ->
  tb_aid_iter (mkTB 2%N (Some (BSlice (repeat 255%N (2 ^ 13))))) = Panic.
Proof.
  intros O. unfold tb_aid_iter. cbn [tb_bitmap bm_bytes rbind tb_control].
  change (tbc_n1 2%N) with 2%N. rewrite O.
  assert (P2 : N.of_nat (2 ^ 13) = 8192%N) by (rewrite Nat2N.inj_pow; reflexivity).
  set (big := 2 ^ 13) in *. clearbody big.
  rewrite (filter_map_res_panic _ _ (big * 8 - 1)); [reflexivity| | |].
  - intros k K. cbn [andb]. destruct (N.testbit _ _); [|eauto]. destruct (_ <? _)%N; eauto.
  - rewrite repeat_length. apply in_seq. lia.
  - replace (nth ((big * 8 - 1) / 8) (repeat 255%N big) 0%N) with 255%N.
    + replace ((big * 8 - 1) mod 8) with 7 by lia. cbn [N.of_nat Pos.of_succ_nat Pos.succ N.testbit Pos.testbit Pos.pred_N Pos.pred_double].
      replace (N.of_nat (big * 8 - 1)) with 65535%N by lia. reflexivity.
    + symmetry. eapply repeat_spec. apply nth_In. rewrite repeat_length. lia.
Qed.
End Received.

(** ** witnesses *)
Section Witnesses.
Context {cfg : Cfg}.
Lemma numbers_checked n : (1 <= n <= 2007)%N -> exists a, aid_new_checked n = Some a /\ numbers [a] = [N.to_nat n].
Proof.
  intros H. rewrite aid_checked_number by lia. replace ((1 <=? n) && (n <=? 2007))%N with true by lia.
  eexists. split; [reflexivity|]. unfold numbers. cbn [map]. now rewrite aid_number by lia.
Qed.
Lemma lowest_single k : k <> 0 -> lowest [k] k.
Proof. intros Z. split; [now left|]. split; [assumption|]. intros a [<-|[]] _. lia. Qed.
Lemma static_shift : exists tb tb', tb_new_static false [(49152 + 42)%N] = Ok tb /\
  received_alone tb tb' /\ reports tb' (fun a => a = 74).
Proof.
  destruct (static_received false [(49152 + 42)%N] 42) as (tb & tb' & E & R & _ & P).
  { cbn. lia. } { constructor; [vm_compute; lia|constructor]. } { exact (lowest_single 42 (Nat.neq_succ_0 _)). }
  exists tb, tb'. split; [assumption|]. split; [assumption|]. eapply reports_ext; [|exact P]. intros x. cbn beta.
  change (numbers [(49152 + 42)%N]) with [42]. change (16 * (42 / 16)) with 32. split.
  - intros (a & [[<-|[]]|(H & _)] & -> & _); [reflexivity|discriminate].
  - intros ->. exists 42. split; [left; now left|lia].
Qed.
Lemma static_group : exists tb tb', tb_new_static true [(49152 + 2)%N] = Ok tb /\
  received_alone tb tb' /\ reports tb' (fun a => a = 1 \/ a = 2).
Proof.
  destruct (static_received true [(49152 + 2)%N] 2) as (tb & tb' & E & R & _ & P).
  { cbn. lia. } { constructor; [vm_compute; lia|constructor]. } { exact (lowest_single 2 (Nat.neq_succ_0 _)). }
  exists tb, tb'. split; [assumption|]. split; [assumption|]. eapply reports_ext; [|exact P]. intros x. cbn beta.
  change (numbers [(49152 + 2)%N]) with [2]. change (16 * (2 / 16)) with 0. split.
  - intros (a & [[<-|[]]|(_ & _ & ->)] & -> & _); auto.
  - intros [->| ->]; [exists 1|exists 2]; (split; [|lia]); [right; split; [reflexivity|lia]|left; now left].
Qed.
Lemma static_element : exists tb buf n t tb', tb_new_static false [(49152 + 8)%N] = Ok tb /\
  wr_wrapped (elem_of TIMElement (mkTIM 0 1 (Some tb))) (repeat 0%N 16) = Ok (buf, n) /\
  get_first_element TIMElement (firstn n buf) = Ok (Some t) /\ te_bitmap t = Some tb' /\
  tb_aid_iter tb' = Ok (Some []).
Proof.
  destruct cfg as [[] [] []]; do 5 eexists; (split; [vm_compute; reflexivity|]); (split; [vm_compute; reflexivity|]);
  (split; [vm_compute; reflexivity|]); split; reflexivity.
Qed.
Lemma zero_only :
  (Writes (wr_tim (mkTIM 0 1 (Some tim_bitmap_zero))) [0; 1; 1; 0]%N /\ et_measure TIMElement (mkTIM 0 1 (Some tim_bitmap_zero)) = 3) /\
  exists tb, tim_bitmap_list [0; 0] = Ok tb /\ wr_tim (mkTIM 0 1 (Some tb)) (repeat 0%N 16) = Panic.
Proof.
  split.
  - exact (tim_indicator_only 0 1 1 eq_refl eq_refl (N.le_0_l _) eq_refl).
  - destruct cfg as [[] [] []]; eexists; (split; [vm_compute; reflexivity|]); vm_compute; reflexivity.
Qed.
Lemma first_bit_lost : exists bs t tb, wf_bytes bs /\ rd_tim bs = Ok (t, length bs) /\ te_bitmap t = Some tb /\
  indicates 2 [1]%N 16 /\ bs = [0; 1; 2; 1]%N /\ reports tb (fun a => False).
Proof.
  exists [0; 1; 2; 1]%N, (tim_value 0 1 (Some (2, [1])%N)), (mkTB 2%N (Some (BSlice [1]%N))).
  split; [repeat constructor|]. split; [exact (rd_tim_eq 0 1 [2; 1]%N)|]. split; [reflexivity|].
  split; [split; [lia|reflexivity]|]. split; [reflexivity|].
  eapply reports_ext; [|apply (reports_slice 2 [1]%N); [reflexivity|cbn; lia]].
  intros a. cbn beta. split; [|intros []]. intros ((H & V) & Z). change (spec_n1 2) with 2 in *.
  unfold virtual_bit in V. apply andb_true_iff in V as [V1 V]. apply Nat.leb_le in V1.
  destruct (a / 8 - 2) as [|[|k]] eqn:Q; cbn [nth] in V; [|now rewrite N.bits_0 in V|now rewrite N.bits_0 in V].
  destruct (a mod 8) as [|[|[|[|[|[|[|[|]]]]]]]] eqn:M; try (cbn in V; discriminate); lia.
Qed.
End Witnesses.
