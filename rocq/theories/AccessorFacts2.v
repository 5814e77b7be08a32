(** Proofs about the accessors, continued. *)
From Coq Require Import SpecFloat.
From Verif Require Import Base SpecBase BaseFacts Bits BitsFacts Layouts SpecCommon Common CommonFacts Enums Utf8 SpecUtf8 Elements SpecElements ElementsFacts
  ElementTypes SpecElementTypes ElementTypesFacts ElementTypesFacts2 Rsn Tim SpecTim TimFacts TimFacts2 Mgmt Amsdu SpecData Accessors SpecAccessors.

(** ** Fields *)
Lemma frame_types_match a b : type_matches a b = true <-> fst (spec_type_of a) = fst (spec_type_of b).
Proof. destruct a, b; cbn; split; congruence. Qed.
Lemma frame_types_match_bits a b : type_matches a b = true <-> (frame_type_into_bits a mod 4 = frame_type_into_bits b mod 4)%N.
Proof.
  assert (S : forall x, (shl2_u8 x mod 4 = 0 /\ N.lor 1 (shl2_u8 x) mod 4 = 1 /\ N.lor 2 (shl2_u8 x) mod 4 = 2 /\ N.lor 3 (shl2_u8 x) mod 4 = 3)%N).
  { intros x. assert (K : forall v k, (k < 4 -> N.lor k (N.land (N.shiftl v 2) 255) mod 4 = k)%N).
    { intros v k Hk. change 4%N with (2 ^ 2)%N. rewrite <- N.land_ones. rewrite N.land_lor_distr_l, <- N.land_assoc.
      replace (N.land (N.shiftl v 2) (N.land 255 (N.ones 2))) with 0%N.
      - rewrite N.lor_0_r, N.land_ones. now apply N.mod_small.
      - symmetry. apply N.bits_inj. intros i. rewrite N.land_spec, N.bits_0. change (N.land 255 (N.ones 2)) with 3%N.
        destruct (N.lt_ge_cases i 2); [rewrite N.shiftl_spec_low by assumption; reflexivity|].
        replace (N.testbit 3 i) with false; [apply andb_false_r|]. symmetry.
        change 3%N with (N.ones 2). apply N.ones_spec_high. assumption. }
    unfold shl2_u8. repeat split; [rewrite <- (N.lor_0_l (N.land _ _)) at 1; apply K; lia|apply K; lia..]. }
  destruct a as [a|a|a|a], b as [b|b|b|b]; cbn [type_matches frame_type_into_bits];
    repeat match goal with |- context [shl2_u8 ?x] => let H := fresh in pose proof (S x) as H; generalize dependent (shl2_u8 x); intros end;
    split; try reflexivity; try discriminate; intros; lia.
Qed.
Lemma sequence_numbers f s : (f < 16)%N -> (s < 4096)%N ->
  seq_fragment_number (sequence_control f s) = f /\ seq_sequence_number (sequence_control f s) = s.
Proof.
  intros F S. unfold seq_fragment_number, seq_sequence_number, lget, sequence_control.
  change (lpos SequenceControl_layout "fragment_number") with (Some (0, 4)%N).
  change (lpos SequenceControl_layout "sequence_number") with (Some (4, 12)%N). cbv beta iota.
  rewrite !bf_get_arith. change (2 ^ 0)%N with 1%N. change (2 ^ 4)%N with 16%N. change (2 ^ 12)%N with 4096%N. rewrite N.div_1_r. split.
  - rewrite N.mul_comm, N.mod_add by discriminate. now apply N.mod_small.
  - rewrite N.mul_comm, N.div_add by discriminate. rewrite N.div_small by assumption. now apply N.mod_small.
Qed.
Lemma sequence_numbers_inv x : (x < 65536)%N ->
  sequence_control (seq_fragment_number x) (seq_sequence_number x) = x /\ (seq_fragment_number x < 16)%N /\ (seq_sequence_number x < 4096)%N.
Proof.
  intros X. unfold seq_fragment_number, seq_sequence_number, lget, sequence_control.
  change (lpos SequenceControl_layout "fragment_number") with (Some (0, 4)%N).
  change (lpos SequenceControl_layout "sequence_number") with (Some (4, 12)%N). cbv beta iota.
  rewrite !bf_get_arith. change (2 ^ 0)%N with 1%N. change (2 ^ 4)%N with 16%N. change (2 ^ 12)%N with 4096%N. rewrite N.div_1_r.
  rewrite (N.mod_small (x / 16)) by (apply N.div_lt_upper_bound; [discriminate|lia]).
  pose proof (N.div_mod x 16 ltac:(discriminate)). pose proof (N.mod_lt x 16 ltac:(discriminate)). repeat split; lia.
Qed.
(** ** VHT *)
Lemma mpdu_length_get info : maximum_mpdu_length_in_bytes info = mpdu_length (info mod 4).
Proof.
  unfold maximum_mpdu_length_in_bytes, lget. change (lpos VHTCapabilitiesInfo_layout "maximum_mpdu_length") with (Some (0, 2)%N). cbv beta iota.
  rewrite bf_get_arith. change (2 ^ 0)%N with 1%N. change (2 ^ 2)%N with 4%N. rewrite N.div_1_r.
  pose proof (N.mod_lt info 4 ltac:(discriminate)) as B. destruct (info mod 4)%N as [|[[p|p|]|[p|p|]|]]; try lia; reflexivity.
Qed.
Lemma mpdu_length_set info len : (info < 2 ^ 32)%N ->
  let info' := with_maximum_mpdu_length_in_bytes info len in
  (info' < 2 ^ 32)%N /\ (info' / 4 = info / 4)%N /\
  maximum_mpdu_length_in_bytes info' = (if existsb (N.eqb len) [3895; 7991; 11454]%N then Some len else None).
Proof.
  intros B info'. rewrite mpdu_length_get. unfold info', with_maximum_mpdu_length_in_bytes.
  set (v := (if (len =? 3895)%N then _ else _)). assert (V : (v < 4)%N) by (unfold v; repeat destruct (_ =? _)%N; reflexivity).
  unfold lset. change (lpos VHTCapabilitiesInfo_layout "maximum_mpdu_length") with (Some (0, 2)%N). cbv beta iota.
  assert (M : (bf_set 0 2 v info mod 4 = v)%N).
  { pose proof (bf_get_set_small 0 2 v info V) as G. rewrite bf_get_arith in G. change (2 ^ 0)%N with 1%N in G. rewrite N.div_1_r in G. exact G. }
  assert (D : (bf_set 0 2 v info / 4 = info / 4)%N).
  { change 4%N with (2 ^ 2)%N. rewrite <- !N.shiftr_div_pow2. apply N.bits_inj. intros i. rewrite !N.shiftr_spec', bf_set_bit.
    replace (i + 2 <? 0 + 2)%N with false by (symmetry; apply N.ltb_ge; lia). now rewrite andb_false_r. }
  split; [|split; [exact D|]].
  - pose proof (N.div_mod (bf_set 0 2 v info) 4 ltac:(discriminate)) as Q. rewrite D, M in Q.
    pose proof (N.div_mod info 4 ltac:(discriminate)). change (2 ^ 32)%N with 4294967296%N in *. pose proof (N.mod_lt info 4 ltac:(discriminate)).
    assert (info / 4 < 1073741824)%N by (apply N.div_lt_upper_bound; [discriminate|lia]). lia.
  - rewrite M. unfold v. cbn [existsb].
    destruct (N.eqb_spec len 3895) as [->|]; [reflexivity|]. destruct (N.eqb_spec len 7991) as [->|]; [reflexivity|].
    destruct (N.eqb_spec len 11454) as [->|]; reflexivity.
Qed.
(** ** SPP A-MSDU *)
Lemma spp_written x caps : x <> Of_Invalid ->
  let caps' := with_spp_ampdu_config x caps in
  sppc caps' = of_is_capable x /\ sppr caps' = of_is_required x /\
  forall k, (k <> 10 -> k <> 11 -> N.testbit caps' k = N.testbit caps k)%N.
Proof.
  intros X caps'. unfold caps', sppc, sppr, with_spp_ampdu_config, lset.
  change (lpos RsnCapabilities_layout "spp_ampdu_config") with (Some (10, 2)%N). cbv beta iota.
  split; [|split]; [rewrite bf_set_bit; destruct x; reflexivity || congruence..|].
  intros k K1 K2. rewrite bf_set_bit. destruct (N.leb_spec 10 k), (N.ltb_spec k (10 + 2)); try reflexivity. lia.
Qed.
Lemma spp_read caps : (sppr caps = false ->
  of_is_capable (spp_ampdu_config caps) = sppc caps /\ of_is_required (spp_ampdu_config caps) = false).
Proof.
  unfold sppr, sppc, spp_ampdu_config, lget. change (lpos RsnCapabilities_layout "spp_ampdu_config") with (Some (10, 2)%N). cbv beta iota.
  pose proof (bf_get_bound 10 2 caps) as B. pose proof (bf_get_bit 10 2 caps 0) as B0. pose proof (bf_get_bit 10 2 caps 1) as B1.
  change (0 + 10)%N with 10%N in B0. change (1 + 10)%N with 11%N in B1. cbn [N.ltb N.compare Pos.compare Pos.compare_cont andb] in B0, B1.
  rewrite <- B0, <- B1. clear B0 B1. change (2 ^ 2)%N with 4%N in B.
  destruct (bf_get 10 2 caps) as [|[[p|p|]|[p|p|]|]]; try lia; vm_compute; intuition discriminate.
Qed.
Lemma spp_table caps : spp_ampdu_config caps = match sppc caps, sppr caps with
    | false, false => Of_Disabled | true, false => Of_Capable | false, true => Of_Required | true, true => Of_Invalid end.
Proof.
  unfold sppr, sppc, spp_ampdu_config, lget. change (lpos RsnCapabilities_layout "spp_ampdu_config") with (Some (10, 2)%N). cbv beta iota.
  pose proof (bf_get_bound 10 2 caps) as B. pose proof (bf_get_bit 10 2 caps 0) as B0. pose proof (bf_get_bit 10 2 caps 1) as B1.
  change (0 + 10)%N with 10%N in B0. change (1 + 10)%N with 11%N in B1. cbn [N.ltb N.compare Pos.compare Pos.compare_cont andb] in B0, B1.
  rewrite <- B0, <- B1. clear B0 B1. change (2 ^ 2)%N with 4%N in B.
  destruct (bf_get 10 2 caps) as [|[[p|p|]|[p|p|]|]]; try lia; vm_compute; reflexivity.
Qed.
Lemma spp_back x caps : spp_ampdu_config (with_spp_ampdu_config x caps) =
  match x with Of_Required => Of_Invalid | Of_Invalid => Of_Required | _ => x end.
Proof.
  destruct x.
  1-3: destruct (spp_written Of_Disabled caps ltac:(discriminate)) as (D1 & D2 & _), (spp_written Of_Capable caps ltac:(discriminate)) as (C1 & C2 & _),
      (spp_written Of_Required caps ltac:(discriminate)) as (R1 & R2 & _); rewrite spp_table, ?D1, ?D2, ?C1, ?C2, ?R1, ?R2; reflexivity.
  unfold spp_ampdu_config, with_spp_ampdu_config, lget, lset. change (lpos RsnCapabilities_layout "spp_ampdu_config") with (Some (10, 2)%N). cbv beta iota.
  rewrite bf_get_set. reflexivity.
Qed.
Lemma spp_misread : exists x caps, x <> Of_Invalid /\ caps = with_spp_ampdu_config x 0 /\ sppr caps = true /\ sppc caps = true /\
  spp_ampdu_config caps <> x /\ of_is_required (spp_ampdu_config caps) = false.
Proof. exists Of_Required. eexists. split; [discriminate|]. split; [reflexivity|]. vm_compute. repeat split; discriminate. Qed.

(** ** Identifiers of elements *)
Lemma element_ids id body : re_type (element id body) = eid_id id /\
  length (enc_element (element id body)) = element_header_length id + length body.
Proof.
  split; [now destruct id|]. unfold enc_element, element. cbn [re_slice length]. rewrite app_length.
  pose proof (id_prefix_length id). lia.
Qed.
Lemma ext_ids id x : eid_ext_id id = Some x <-> forall body, element id body = mkRaw 255 (x :: body).
Proof.
  split.
  - destruct id as [i|y|p]; try discriminate. intros [= ->] body. reflexivity.
  - intros H. specialize (H []). destruct id as [i|y|p]; unfold element in H; cbn [id_prefix app] in H; try discriminate. now injection H as ->.
Qed.
Lemma is_ext_ids id : eid_is_ext id = true <-> exists x, forall body, element id body = mkRaw 255 (x :: body).
Proof.
  split.
  - destruct id as [i|y|p]; try discriminate. intros _. exists y. reflexivity.
  - intros [x H]. apply ext_ids in H. now destruct id.
Qed.
Lemma vendor_ids id p : p <> [] -> (eid_vendor_prefix id = Some p <-> forall body, element id body = mkRaw 221 (p ++ body)).
Proof.
  intros N. split.
  - destruct id as [i|y|q]; try discriminate. intros [= ->] body. reflexivity.
  - intros H. specialize (H []). destruct id as [i|y|q]; unfold element in H; cbn [id_prefix app] in H; try discriminate.
    + injection H as _ H. destruct p; [congruence|discriminate].
    + injection H as H. rewrite !app_nil_r in H. now subst.
Qed.
Lemma vendor_prefix payload prefix rest : get_payload_if_prefix_matches payload prefix = Some rest <-> payload = prefix ++ rest.
Proof.
  unfold get_payload_if_prefix_matches. revert payload. induction prefix as [|p prefix IH]; intros payload; cbn [starts_with length skipn app].
  - split; [intros [= <-]; reflexivity|intros ->; reflexivity].
  - destruct payload as [|b payload]; [split; discriminate|]. destruct (N.eqb_spec p b) as [->|Ne]; cbn [andb skipn].
    + rewrite IH. split; [intros ->; reflexivity|intros [= ->]; reflexivity].
    + split; [discriminate|]. intros [= E _]. congruence.
Qed.

Section Facts.
Context {cfg : Cfg}.
Lemma raw_ext_round_trip x s : (x < 256)%N ->
  Writes (wr_raw_ext (mkRawExt x s)) (x :: s) /\ raw_ext_measure (mkRawExt x s) = length (x :: s) /\
  exists n, rd_raw_ext (x :: s) = Ok (mkRawExt x s, n).
Proof.
  intros X. split; [|split].
  - eapply Writes_eq; [apply wseq_W; constructor; [apply wr_u8_small, X|constructor; [apply wr_bytes_W|constructor]]|].
    cbn [concat app rx_slice]. now rewrite app_nil_r.
  - unfold raw_ext_measure. cbn [rx_slice length]. lia.
  - exists 1. apply rd_raw_ext_cons.
Qed.
Lemma raw_ext_size : exists from x n, rd_raw_ext from = Ok (x, n) /\ rx_slice x <> [] /\ n < length from.
Proof. exists [1; 2]%N, (mkRawExt 1 [2]%N), 1. split; [apply rd_raw_ext_cons|]. split; [discriminate|cbn; lia]. Qed.
Lemma typed_ext_round_trip {A} (w : writer) (r : reader A) x s v : (x < 256)%N ->
  Writes w s -> ReadsAll r s v -> end_ok s ->
  Writes (wr_typed_ext x w) (x :: s) /\ typed_ext_measure (length s) = length (x :: s) /\
  ReadsAll (rd_typed_ext r) (x :: s) (x, v).
Proof.
  intros X W R EO. split; [|split].
  - eapply Writes_eq; [apply wseq_W; constructor; [apply wr_u8_small, X|constructor; [exact W|constructor]]|].
    cbn [concat app]. now rewrite app_nil_r.
  - unfold typed_ext_measure. cbn [length]. lia.
  - unfold ReadsAll, rd_typed_ext, gread. rewrite end_bad_lt by (cbn; lia). cbn [rd_u8 rd_le skipn rbind].
    apply end_ok_slack in EO. cbn. rewrite end_bad_false by (cbn; lia). cbn [skipn]. rewrite R. cbn. reflexivity.
Qed.
Lemma typed_ext_panic {A} (r : reader A) : NoPanic r -> NoPanic (rd_typed_ext r).
Proof.
  intros NP from. unfold rd_typed_ext, gread. destruct (end_bad 0 _); [discriminate|]. destruct from as [|x s]; [discriminate|].
  cbn. destruct (end_bad 1 _); [discriminate|]. specialize (NP s). now destruct (r s) as [[y n]|e|].
Qed.

(** ** A-MSDUs *)
Lemma amsdu_lengths l : Forall ok_sub l -> amsdu_length l = list_sum (map (fun s => length (enc_sub s)) l).
Proof.
  intros F. unfold amsdu_length. f_equal. apply map_ext_in. intros s I. rewrite Forall_forall in F. destruct (F s I) as ((A & _) & (B & _) & _).
  unfold sub_length, enc_sub. rewrite !app_length, le_bytes_length, A, B. lia.
Qed.

(** ** Comparing *)
Lemma bytes_eqb_spec a b : bytes_eqb a b = true <-> a = b.
Proof. unfold bytes_eqb. destruct (list_eq_dec N.eq_dec a b); split; congruence. Qed.
Lemma tb_eq_spec a b c d (u v : option bytes) : tb_control a = c -> tb_control b = d -> bitmap_holds (tb_bitmap a) u -> bitmap_holds (tb_bitmap b) v ->
  exists r, tb_eq a b = Ok r /\ (r = true <-> (c, u) = (d, v)).
Proof.
  intros <- <- U V. unfold tb_eq. destruct (N.eqb_spec (tb_control a) (tb_control b)) as [->|Ne]; cbn [negb].
  2:{ exists false. split; [reflexivity|]. split; congruence. }
  unfold bitmap_holds in *. destruct (tb_bitmap a) as [x|], (tb_bitmap b) as [y|], u as [u|], v as [v|]; try contradiction.
  - rewrite U, V. cbn [rbind]. eexists. split; [reflexivity|]. rewrite bytes_eqb_spec. split; congruence.
  - rewrite U. cbn [rbind]. eexists. split; [reflexivity|]. split; congruence.
  - rewrite V. cbn [rbind]. eexists. split; [reflexivity|]. split; congruence.
  - eexists. split; [reflexivity|]. tauto.
Qed.
Lemma te_eq_spec a b v w : tim_holds a v -> tim_holds b w -> exists r, te_eq a b = Ok r /\ (r = true <-> v = w).
Proof.
  destruct v as [[c p] v], w as [[d q] w]. unfold tim_holds. cbn [fst snd]. intros (<- & <- & A) (<- & <- & B). unfold te_eq.
  destruct (N.eqb_spec (te_count a) (te_count b)) as [->|Ne]; cbn [andb negb].
  2:{ exists false. split; [reflexivity|]. split; congruence. }
  destruct (N.eqb_spec (te_period a) (te_period b)) as [->|Ne]; cbn [andb negb].
  2:{ exists false. split; [reflexivity|]. split; congruence. }
  destruct (te_bitmap a) as [x|], (te_bitmap b) as [y|], v as [[cv v]|], w as [[cw w]|]; try contradiction.
  - destruct A as (A1 & A2), B as (B1 & B2). destruct (tb_eq_spec x y cv cw v w A1 B1 A2 B2) as (r & -> & R).
    exists r. split; [reflexivity|]. rewrite R. split; congruence.
  - eexists. split; [reflexivity|]. split; congruence.
  - eexists. split; [reflexivity|]. split; congruence.
  - eexists. split; [reflexivity|]. tauto.
Qed.
Lemma te_eq_refl a v : tim_holds a v -> te_eq a a = Ok true.
Proof. intros A. destruct (te_eq_spec a a v v A A) as (r & E & R). rewrite E. f_equal. now apply R. Qed.
Lemma te_eq_sym a b v w : tim_holds a v -> tim_holds b w -> te_eq a b = te_eq b a.
Proof.
  intros A B. destruct (te_eq_spec a b v w A B) as (r & -> & R), (te_eq_spec b a w v B A) as (r' & -> & R'). f_equal.
  destruct r, r'; auto; exfalso; assert (X : v = w \/ w = v) by tauto; assert (w = v) by (destruct X; congruence); assert (v = w) by congruence; intuition discriminate.
Qed.
Lemma te_eq_trans a b c u v w : tim_holds a u -> tim_holds b v -> tim_holds c w ->
  te_eq a b = Ok true -> te_eq b c = Ok true -> te_eq a c = Ok true.
Proof.
  intros A B C E F. destruct (te_eq_spec a b u v A B) as (r & E' & R), (te_eq_spec b c v w B C) as (r' & F' & R'),
    (te_eq_spec a c u w A C) as (q & -> & Q). rewrite E in E'. rewrite F in F'. injection E' as <-. injection F' as <-. f_equal. apply Q.
  transitivity v; [now apply R|now apply R'].
Qed.
(** what is written depends on the content only *)
Lemma tim_same_bytes a b v : tim_holds a v -> tim_holds b v -> valid_tim v -> exists bs,
  Writes (wr_tim a) bs /\ Writes (wr_tim b) bs.
Proof.
  destruct v as [[c p] [[ctl [bs|]]|]]; intros A B V.
  - assert (X : forall t, tim_holds t (c, p, Some (ctl, Some bs)) -> tim_shows t c p (Some (ctl, bs))).
    { intros t (E1 & E2 & H). split; [exact E1|]. split; [exact E2|]. cbn [snd] in H. destruct (te_bitmap t) as [tb|]; [|contradiction].
      destruct H as (H1 & H2). split; [exact H1|]. unfold bitmap_holds in H2. destruct (tb_bitmap tb) as [x|]; [|contradiction]. eauto. }
    destruct V as (V1 & V2 & V3 & V4). exists (enc_tim c p (Some (ctl, bs))). split; (apply wr_tim_W; [now apply X|now split|assumption|assumption]).
  - destruct V as (V1 & V2 & V3 & _).
    assert (X : forall t, tim_holds t (c, p, Some (ctl, None)) -> t = mkTIM c p (Some (mkTB ctl None))).
    { intros [tc tp tt] (E1 & E2 & H). cbn [fst snd te_count te_period te_bitmap] in *. subst. destruct tt as [[x y]|]; [|contradiction].
      destruct H as (H1 & H2). cbn [tb_control tb_bitmap bitmap_holds] in *. destruct y; [contradiction|]. now subst. }
    rewrite (X a A), (X b B). destruct (spec_group ctl) eqn:G.
    + exists [c; p; ctl; 0]%N. destruct (tim_indicator_only c p ctl V3 G V1 V2) as (W & _). now split.
    + exists [c; p]. assert (W : Writes (wr_tim (mkTIM c p (Some (mkTB ctl None)))) [c; p]); [|now split].
      eapply Writes_ext; [|apply (wr_tim_W (mkTIM c p None) c p None); [repeat split|exact I|assumption|assumption]].
      intros buf. unfold wr_tim. cbn [te_period te_count te_bitmap]. unfold tb_is_empty, tb_traffic. cbn [tb_control tb_bitmap].
      rewrite tbc_traffic_spec, G. reflexivity.
  - assert (X : forall t, tim_holds t (c, p, None) -> tim_shows t c p None).
    { intros t (E1 & E2 & H). split; [exact E1|]. split; [exact E2|]. cbn [snd] in H. now destruct (te_bitmap t). }
    destruct V as (V1 & V2 & _). exists (enc_tim c p None). split; (apply wr_tim_W; [now apply X|exact I|assumption|assumption]).
Qed.
Lemma rates_eq_spec x y : exists r, rates_eq x y = Ok r /\ (r = true <-> rates_hold x = rates_hold y).
Proof.
  assert (X : forall z, rates_items z = Ok (rates_hold z)) by (intros [l|l]; [reflexivity|apply rates_collect_id]).
  unfold rates_eq. rewrite !X. cbn [rbind]. eexists. split; [reflexivity|]. apply bytes_eqb_spec.
Qed.
Lemma rates_same_bytes t x y : rates_eq x y = Ok true -> forall buf, rates_write t x buf = rates_write t y buf.
Proof.
  destruct (rates_eq_spec x y) as (r & -> & R). intros [= ->] buf. destruct R as [R _].
  assert (X : forall z, rates_items z = Ok (rates_hold z)) by (intros [l|l]; [reflexivity|apply rates_collect_id]).
  unfold rates_write. rewrite !X, R by reflexivity. reflexivity.
Qed.
Lemma rates_received t ok l bs y : t = SupportedRatesElement /\ ok = 8 \/ t = ExtendedSupportedRatesElement /\ ok = 255 ->
  wf_bytes l -> length l <= ok -> Writes (et_write t l) bs -> ReadsAll (et_read t) bs y -> rates_eq (Arr l) (Iter y) = Ok true.
Proof.
  intros T W L Wr R. destruct (rates_eq_spec (Arr l) (Iter y)) as (r & -> & E). f_equal. apply E. cbn [rates_hold].
  assert (X : RoundTrip t (ok_rates ok) (fun l => l)).
  { destruct T as [[-> ->]|[-> ->]]; [apply supported_rates_round_trip|apply extended_rates_round_trip]. }
  destruct (X l (conj W L)) as (b & W1 & _ & _ & R1).
  pose proof (writes_unique _ _ _ W1 Wr) as ->. unfold ReadsAll in *. rewrite R in R1. now injection R1 as <-.
Qed.
Lemma type_ids :
  (et_id SSIDElement = Id 0 /\ et_id SupportedRatesElement = Id 1 /\ et_id DSSSParameterSetElement = Id 3 /\ et_id TIMElement = Id 5
   /\ et_id IBSSParameterSetElement = Id 6 /\ et_id BSSLoadElement = Id 11 /\ et_id HTCapabilitiesElement = Id 45 /\ et_id RsnElement = Id 48
   /\ et_id ExtendedSupportedRatesElement = Id 50 /\ et_id HTOperationElement = Id 61 /\ et_id MeshConfigurationElement = Id 113
   /\ et_id MeshIDElement = Id 114 /\ et_id MeshPeeringElement = Id 117 /\ et_id VHTCapabilitiesElement = Id 191
   /\ et_id VHTOperationElement = Id 192 /\ et_id VendorSpecificElement = Id 221) /\
  et_id OWETransitionModeElement = VendorSpecific [0x50; 0x6f; 0x9a; 0x1c]%N /\
  (et_id GtkKde = VendorSpecific [0x00; 0x0f; 0xac; 1]%N /\ et_id MacAddressKde = VendorSpecific [0x00; 0x0f; 0xac; 3]%N
   /\ et_id PmkidKde = VendorSpecific [0x00; 0x0f; 0xac; 4]%N /\ et_id NonceKde = VendorSpecific [0x00; 0x0f; 0xac; 6]%N
   /\ et_id LifetimeKde = VendorSpecific [0x00; 0x0f; 0xac; 7]%N).
Proof. repeat split. Qed.
End Facts.
(** equal elements that announce different lengths *)
Lemma tim_equal_measure {cfg : Cfg} : exists a b, te_eq a b = Ok true /\ et_measure TIMElement a <> et_measure TIMElement b.
Proof.
  exists (mkTIM 0 1 (Some (mkTB 0%N (Some (BStatic [4; 0]%N 0))))), (mkTIM 0 1 (Some (mkTB 0%N (Some (BSlice [4]%N))))).
  destruct cfg as [[] [] []]; (split; [reflexivity|vm_compute; discriminate]).
Qed.
(** ** [rate!] *)
(** the [f32] literal [k / 2] *)
Lemma rate_macro_halves {cfg : Cfg} k b : (k < 128)%N -> rate_macro (half k) b = Ok (k + (if b then 128 else 0))%N.
Proof.
  intros K. assert (H : forallb (fun k => match rate_macro (half k) b with Ok x => (x =? k + (if b then 128 else 0))%N | _ => false end) (map N.of_nat (seq 0 128)) = true).
  { destruct cfg as [[] [] []], b; vm_compute; reflexivity. }
  rewrite forallb_forall in H. specialize (H k). destruct (rate_macro (half k) b) as [x|e|].
  - f_equal. apply N.eqb_eq, H. apply in_map_iff. exists (N.to_nat k). split; [apply N2Nat.id|apply in_seq; lia].
  - discriminate H. apply in_map_iff. exists (N.to_nat k). split; [apply N2Nat.id|apply in_seq; lia].
  - discriminate H. apply in_map_iff. exists (N.to_nat k). split; [apply N2Nat.id|apply in_seq; lia].
Qed.
(** values without a rate *)
Lemma rate_macro_special {cfg : Cfg} (b : bool) : let bit := (if b then 128 else 0)%N in
  rate_macro S754_nan b = Ok bit /\ (forall s, rate_macro (S754_zero s) b = Ok bit) /\ rate_macro (S754_infinity true) b = Ok bit /\
  (forall m e, rate_macro (S754_finite true m e) b = Ok bit) /\
  rate_macro (S754_infinity false) b = (if overflow_checks then Panic else Ok (95 + bit)%N).
Proof.
  assert (Z : from_rate_in_kbps 0 b = Ok (if b then 128 else 0)%N) by (destruct cfg as [[] [] []], b; vm_compute; reflexivity).
  cbv zeta. split; [exact Z|]. split; [intros []; exact Z|]. split; [exact Z|]. split.
  - intros m e. unfold rate_macro. replace (f32_as_usize _) with 0%N; [exact Z|].
    change (f32_of_N 1000) with (S754_finite false 16384000 (-14)). unfold f32_mul, SFmul. cbn [xorb]. unfold binary_round_aux.
    destruct (shr_fexp _ _ _ _ _) as [r e1]. destruct (shr_fexp _ _ _ _ _) as [r2 e2]. destruct (shr_m r2); [reflexivity| |reflexivity].
    destruct (Zle_bool _ _); reflexivity.
  - destruct cfg as [[] [] []], b; vm_compute; reflexivity.
Qed.
