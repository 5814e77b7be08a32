(** Proofs about the common types. *)
From Verif Require Import Base BaseFacts Bits Layouts BitsFacts Enums EnumsFacts Common SpecCommon SpecCodes SpecLayouts.
Local Open Scope N_scope.

(** finite sweeps *)
Fixpoint Nseq (n : nat) : list N := match n with O => [] | S n' => Nseq n' ++ [N.of_nat n'] end.
Lemma Nseq_in n k : k < N.of_nat n -> In k (Nseq n).
Proof.
  induction n as [|n IH]; intros H; [lia|]. cbn [Nseq]. apply in_or_app.
  destruct (N.eq_dec k (N.of_nat n)) as [->|E]; [right; left; reflexivity|left; apply IH; lia].
Qed.
Lemma sweepN n (P : N -> bool) : forallb P (Nseq n) = true -> forall k, k < N.of_nat n -> P k = true.
Proof. intros H k Hk. rewrite forallb_forall in H. apply H, Nseq_in, Hk. Qed.

(** ** Enumerations *)
Fixpoint nodupb (l : list N) : bool :=
  match l with [] => true | x :: l' => negb (existsb (N.eqb x) l') && nodupb l' end.
Lemma nodupb_spec l : nodupb l = true -> NoDup l.
Proof.
  induction l as [|x l IH]; cbn [nodupb]; intros H; [constructor|].
  apply andb_prop in H as [H1 H2]. constructor; [|auto]. intros I.
  apply negb_true_iff in H1. assert (existsb (N.eqb x) l = true); [|congruence].
  apply existsb_exists. exists x. split; [exact I|apply N.eqb_refl].
Qed.
Lemma in_existsb n l : existsb (N.eqb n) l = true -> In n l.
Proof. intros H. apply existsb_exists in H as [x [I E]]. apply N.eqb_eq in E. now subst. Qed.
Fixpoint index_of (n : N) (l : list N) : nat :=
  match l with [] => O | x :: l' => if x =? n then O else S (index_of n l') end.
Ltac enum_tac :=
  split; [ first [ exact mgmt_subtype_into_from | exact ctrl_subtype_into_from | exact data_cf_into_from
    | exact data_subtype_into_from | exact reason_into_from | exact status_into_from
    | exact auth_algo_into_from | exact category_into_from | exact self_prot_into_from
    | exact mesh_peering_proto_into_from | exact mesh_path_proto_into_from | exact mesh_path_metric_into_from
    | exact mesh_congestion_into_from | exact mesh_sync_into_from | exact mesh_auth_into_from
    | exact sec_chan_into_from | exact ht_prot_into_from | exact sm_pw_save_into_from
    | exact max_ampdu_into_from | exact mpdu_density_into_from | exact bf_calibration_into_from
    | exact bf_feedback_into_from | exact grouping_into_from | exact vht_mcs_into_from
    | exact channel_width_into_from | exact key_desc_version_into_from ] |];
  split; [ cbn; intros v n H;
    repeat (destruct H as [H|H]; [injection H as <- <-; split; reflexivity|]); destruct H |];
  split; [ intros n H; cbn [ce_from ce_unknown ce_std] in *; match goal with |- ce_from ?e _ = _ => unfold e in *; cbn [ce_from ce_unknown ce_std] in * | _ => idtac end; match goal with |- ?f n = _ => unfold f end;
    destruct n as [|p]; [ first [reflexivity | exfalso; apply H, in_existsb; vm_compute; reflexivity] |];
    repeat (match goal with |- context [match ?q with xI _ => _ | xO _ => _ | xH => _ end] => destruct q end);
    first [reflexivity | exfalso; apply H, in_existsb; vm_compute; reflexivity ] |];
  split; [ let v := fresh "v" in intros v; destruct v; try (right; eexists; reflexivity);
    match goal with |- In ?c (map fst (ce_std ?e)) \/ _ =>
      let i := eval vm_compute in (index_of (ce_into e c) (map snd (ce_std e))) in
      left; apply (nth_error_In _ i); reflexivity end |];
  split; [ intros n; reflexivity |];
  apply nodupb_spec; vm_compute; reflexivity.

Lemma all_enums_correct e : In e all_enums -> enum_correct e.
Proof.
  unfold all_enums. intros H. cbn [In] in H.
  repeat (destruct H as [<-|H]; [enum_tac|]). destruct H.
Qed.
Lemma enum_injective e : In e all_enums -> forall u v,
  ce_from e (ce_into e u) = u -> ce_from e (ce_into e v) = v -> ce_into e u = ce_into e v -> u = v.
Proof. intros _ u v Hu Hv E. rewrite <- Hu, <- Hv. now rewrite E. Qed.

(** ** Frame control *)
Definition ft_eqb_spec (x : N) : bool :=
  (let t := fcf_frame_type x in
   (fst (spec_type_of t) =? spec_type x) && (snd (spec_type_of t) =? spec_subtype x)
   && (fcf_version x =? spec_version x) && (fcf_flags x =? spec_flags x)
   && (fcf_with_version (fcf_version x) (fcf_make t (fcf_flags x)) =? x)).

Lemma frame_type_spec b : b < 64 ->
  spec_type_of (frame_type_from_bits b) = (b mod 4, b / 4) /\
  frame_type_into_bits (frame_type_from_bits b) = b.
Proof.
  intros H.
  assert (S : forallb (fun b => let t := frame_type_from_bits b in
     (fst (spec_type_of t) =? b mod 4) && (snd (spec_type_of t) =? b / 4)
     && (frame_type_into_bits t =? b)) (Nseq 64) = true) by (vm_compute; reflexivity).
  pose proof (sweepN 64 _ S b H) as E. cbn zeta in E.
  apply andb_prop in E as [E E3]. apply andb_prop in E as [E1 E2].
  apply N.eqb_eq in E1, E2, E3. split; [|exact E3].
  destruct (spec_type_of _) as [u v]. cbn in *. congruence.
Qed.
Lemma frame_type_canonical_trip t : canonical_frame_type t ->
  frame_type_into_bits t < 64 /\ frame_type_from_bits (frame_type_into_bits t) = t.
Proof.
  assert (S : forallb (fun n =>
      (N.land (frame_type_into_bits (FT_Unknown n)) 3 =? 3) && (N.shiftr (N.land (frame_type_into_bits (FT_Unknown n)) 0x3c) 2 =? n)
      && (frame_type_into_bits (FT_Unknown n) <? 64)
      && (N.land (shl2_u8 n) 3 =? 0) && (N.shiftr (N.land (shl2_u8 n) 0x3c) 2 =? n) && (shl2_u8 n <? 64)
      && (N.land (N.lor 1 (shl2_u8 n)) 3 =? 1) && (N.shiftr (N.land (N.lor 1 (shl2_u8 n)) 0x3c) 2 =? n) && (N.lor 1 (shl2_u8 n) <? 64)
      && (N.land (N.lor 2 (shl2_u8 n)) 3 =? 2) && (N.shiftr (N.land (N.lor 2 (shl2_u8 n)) 0x3c) 2 =? n) && (N.lor 2 (shl2_u8 n) <? 64))
      (Nseq 16) = true) by (vm_compute; reflexivity).
  pose proof (sweepN 16 _ S) as Q. clear S.
  unfold frame_type_from_bits. destruct t as [s|s|s|s]; cbn [canonical_frame_type frame_type_into_bits].
  - intros [H E]. specialize (Q _ H). repeat (apply andb_prop in Q as [Q ?X]).
    split; [now apply N.ltb_lt|]. apply N.eqb_eq in X8, X9 || idtac.
    repeat match goal with X : (_ =? _) = true |- _ => apply N.eqb_eq in X end.
    repeat match goal with X : ?l = ?r |- context [?l] => rewrite X end. reflexivity.
  - intros [H E]. specialize (Q _ H). repeat (apply andb_prop in Q as [Q ?X]).
    split; [now apply N.ltb_lt|].
    repeat match goal with X : (_ =? _) = true |- _ => apply N.eqb_eq in X end.
    repeat match goal with X : ?l = ?r |- context [?l] => rewrite X end. reflexivity.
  - intros [H E]. specialize (Q _ H). repeat (apply andb_prop in Q as [Q ?X]).
    split; [now apply N.ltb_lt|].
    repeat match goal with X : (_ =? _) = true |- _ => apply N.eqb_eq in X end.
    repeat match goal with X : ?l = ?r |- context [?l] => rewrite X end. reflexivity.
  - intros H. specialize (Q _ H). repeat (apply andb_prop in Q as [Q ?X]).
    split; [now apply N.ltb_lt|].
    repeat match goal with X : (_ =? _) = true |- _ => apply N.eqb_eq in X end.
    cbn [frame_type_into_bits] in *.
    repeat match goal with X : ?l = ?r |- context [?l] => rewrite X end. reflexivity.
Qed.
Lemma frame_type_from_canonical b : b < 64 -> canonical_frame_type (frame_type_from_bits b).
Proof.
  intros H. destruct (frame_type_spec b H) as [E _].
  assert (Q : b / 4 < 16) by (apply N.div_lt_upper_bound; lia).
  revert E. unfold frame_type_from_bits. set (z := N.shiftr (N.land b 60) 2).
  destruct (N.land b 3) as [|[p|[p|p|]|]]; cbn [canonical_frame_type spec_type_of]; intros E; injection E as _ E2.
  - split; [rewrite E2; exact Q|]. apply f_equal, mgmt_subtype_into_from.
  - rewrite E2. exact Q.
  - rewrite E2. exact Q.
  - rewrite E2. exact Q.
  - split; [rewrite E2; exact Q|]. apply f_equal, data_subtype_into_from.
  - split; [rewrite E2; exact Q|]. apply f_equal, ctrl_subtype_into_from.
Qed.

Lemma fcf_pos_version : lpos FrameControlField_layout "version" = Some (0, 2). Proof. reflexivity. Qed.
Lemma fcf_pos_type : lpos FrameControlField_layout "frame_type" = Some (2, 6). Proof. reflexivity. Qed.
Lemma fcf_pos_flags : lpos FrameControlField_layout "flags" = Some (8, 8). Proof. reflexivity. Qed.
Lemma fcf_fields x : fcf_version x = spec_version x /\ fcf_flags x = spec_flags x /\
  spec_type_of (fcf_frame_type x) = (spec_type x, spec_subtype x).
Proof.
  unfold fcf_version, fcf_flags, fcf_frame_type, lget, spec_version, spec_flags, spec_type, spec_subtype.
  rewrite fcf_pos_version, fcf_pos_type, fcf_pos_flags, !bf_get_arith.
  split; [now rewrite N.div_1_r|]. split; [reflexivity|].
  change (2 ^ 2) with 4. change (2 ^ 6) with 64. change 64 with (4 * 16).
  destruct (frame_type_spec ((x / 4) mod (4 * 16))) as [E _]; [apply N.mod_lt; lia|]. rewrite E.
  f_equal.
  - rewrite (N.mod_mul_r (x / 4) 4 16) by lia. rewrite N.mul_comm, N.mod_add, N.mod_mod by lia. reflexivity.
  - rewrite (N.mod_mul_r (x / 4) 4 16) by lia.
    rewrite N.mul_comm, N.div_add, N.div_small, N.add_0_l by (try lia; apply N.mod_lt; lia).
    rewrite N.div_div by lia. reflexivity.
Qed.
Lemma fcf_rebuild x : x < 65536 ->
  fcf_with_version (fcf_version x) (fcf_make (fcf_frame_type x) (fcf_flags x)) = x.
Proof.
  intros H. unfold fcf_make, fcf_with_version, fcf_with_flags, fcf_with_frame_type.
  assert (B : lget FrameControlField_layout "frame_type" x < 64) by (apply (lget_bound _ _ x 2 6); reflexivity).
  assert (T : frame_type_into_bits (fcf_frame_type x) = lget FrameControlField_layout "frame_type" x).
  { unfold fcf_frame_type. now apply frame_type_spec. }
  rewrite T. clear T. change 65536 with (2 ^ lay_width FrameControlField_layout) in H.
  apply (lay_ext FrameControlField_layout); [|exact H|].
  - repeat apply lset_bound; try reflexivity.
  - pose proof (lget_bound FrameControlField_layout "version" x 0 2 eq_refl) as B1.
    pose proof (lget_bound FrameControlField_layout "flags" x 8 8 eq_refl) as B2.
    change (2 ^ 2) with 4 in *. change (2 ^ 8) with 256 in *.
    set (y := lset _ "version" _ _).
    assert (V : lget FrameControlField_layout "version" y = lget FrameControlField_layout "version" x).
    { unfold y. rewrite (lget_lset FrameControlField_layout "version" _ _ 0 2); [reflexivity|reflexivity|exact B1]. }
    assert (F : lget FrameControlField_layout "flags" y = lget FrameControlField_layout "flags" x).
    { unfold y. rewrite lget_lset_other by discriminate.
      rewrite (lget_lset FrameControlField_layout "flags" _ _ 8 8); [reflexivity|reflexivity|exact B2]. }
    assert (T : lget FrameControlField_layout "frame_type" y = lget FrameControlField_layout "frame_type" x).
    { unfold y. rewrite !lget_lset_other by discriminate.
      rewrite (lget_lset FrameControlField_layout "frame_type" _ _ 2 6); [reflexivity|reflexivity|exact B]. }
    unfold lget in V, F, T. rewrite fcf_pos_version in V. rewrite fcf_pos_flags in F. rewrite fcf_pos_type in T.
    cbn [lay_all_eq FrameControlField_layout]. repeat split; assumption.
Qed.
(** composing the field from parts and taking it apart *)
Lemma fcf_make_parts t f v : canonical_frame_type t -> f < 256 -> v < 4 ->
  let x := fcf_with_version v (fcf_make t f) in
  x < 65536 /\ fcf_version x = v /\ fcf_frame_type x = t /\ fcf_flags x = f.
Proof.
  intros C Hf Hv x. destruct (frame_type_canonical_trip t C) as [Bt Et].
  unfold x, fcf_make, fcf_with_version, fcf_with_flags, fcf_with_frame_type.
  split; [|split; [|split]].
  - change 65536 with (2 ^ 16). repeat apply lset_bound; reflexivity.
  - unfold fcf_version. now rewrite (lget_lset _ _ _ _ 0 2).
  - unfold fcf_frame_type. rewrite !lget_lset_other by discriminate. now rewrite (lget_lset _ _ _ _ 2 6).
  - unfold fcf_flags. rewrite lget_lset_other by discriminate. now rewrite (lget_lset _ _ _ _ 8 8).
Qed.
Lemma fcf_make_read t f : canonical_frame_type t -> f < 256 ->
  fcf_make t f < 65536 /\ fcf_version (fcf_make t f) = 0 /\ fcf_frame_type (fcf_make t f) = t /\ fcf_flags (fcf_make t f) = f.
Proof.
  intros C Hf. destruct (fcf_make_parts t f 0 C Hf) as (A & B & D & E); [lia|].
  assert (V : fcf_version (fcf_make t f) = 0).
  { unfold fcf_version, fcf_make, fcf_with_flags, fcf_with_frame_type. now rewrite !lget_lset_other by discriminate. }
  assert (X : fcf_with_version 0 (fcf_make t f) = fcf_make t f).
  { unfold fcf_with_version. rewrite <- V at 1. apply lset_lget. }
  rewrite X in *. auto.
Qed.
Lemma flag_bits f : to_ds f = N.testbit f 0 /\ from_ds f = N.testbit f 1 /\ order f = N.testbit f 7
  /\ protected f = N.testbit f 6.
Proof. repeat split; apply lgetb_bit; reflexivity. Qed.

(** ** Control frame addresses *)
Lemma ctrl_address_2_exact s :
  ctrl_has_address_2 s = spec_ctrl_has_second_address s <->
  ~ (s = Ct_RTS \/ s = Ct_CFEndAck \/ s = Ct_BeamformingReportPoll \/ s = Ct_VHTNDPAnnouncement).
Proof. destruct s; cbn; intuition discriminate. Qed.
Lemma ctrl_address_2_sound s : ctrl_has_address_2 s = true -> spec_ctrl_has_second_address s = true.
Proof. destruct s; cbn; auto. Qed.

(** data subtypes: bit 3 means QoS, bit 2 means no data *)
Lemma data_subtype_bits n : n < 16 -> n <> 13 ->
  data_is_qos (data_subtype_from_bits n) = N.testbit n 3 /\
  data_has_payload (data_subtype_from_bits n) = negb (N.testbit n 2) /\
  data_cf_into_bits (data_frame_cf (data_subtype_from_bits n)) = n mod 4.
Proof.
  intros H K.
  assert (S : forallb (fun n => (n =? 13) ||
     (Bool.eqb (data_is_qos (data_subtype_from_bits n)) (N.testbit n 3) &&
      Bool.eqb (data_has_payload (data_subtype_from_bits n)) (negb (N.testbit n 2)) &&
      (data_cf_into_bits (data_frame_cf (data_subtype_from_bits n)) =? n mod 4))) (Nseq 16) = true)
    by (vm_compute; reflexivity).
  pose proof (sweepN 16 _ S n H) as E. cbn beta in E. apply orb_prop in E as [E|E]; [apply N.eqb_eq in E; contradiction|].
  apply andb_prop in E as [E E3]. apply andb_prop in E as [E1 E2].
  apply Bool.eqb_prop in E1, E2. apply N.eqb_eq in E3. auto.
Qed.

(** ** Association IDs *)
Lemma aid_mask n : N.land n (N.ldiff 0xffff 0xc000) = n mod 16384.
Proof. change (N.ldiff 0xffff 0xc000) with (N.ones 14). apply N.land_ones. Qed.
Lemma aid_set a : a < 16384 -> lset AssociationID_layout "internal_aid" a aid_new = 49152 + a.
Proof.
  intros H. unfold lset. change (lpos AssociationID_layout "internal_aid") with (Some (0, 14)). cbn [fst].
  apply N.bits_inj. intros k. rewrite bf_set_bit.
  assert (E : 49152 + a = N.lor 49152 a).
  { rewrite <- N.lxor_lor. 2:{ apply N.bits_inj. intros j. rewrite N.land_spec, N.bits_0.
      destruct (N.ltb_spec j 14) as [L|L]; [|rewrite (small_bits a 14 j H L); apply andb_false_r].
      change 49152 with (N.shiftl 3 14). rewrite N.shiftl_spec_low by exact L. reflexivity. }
    apply N.add_nocarry_lxor. apply N.bits_inj. intros j. rewrite N.land_spec, N.bits_0.
    destruct (N.ltb_spec j 14) as [L|L]; [|rewrite (small_bits a 14 j H L); apply andb_false_r].
    change 49152 with (N.shiftl 3 14). rewrite N.shiftl_spec_low by exact L. reflexivity. }
  rewrite E, N.lor_spec. change aid_new with 49152.
  destruct (N.leb_spec 0 k), (N.ltb_spec k (0 + 14)) as [L|L]; try lia; cbn [andb].
  - rewrite N.sub_0_r. change 49152 with (N.shiftl 3 14). rewrite N.shiftl_spec_low by exact L. reflexivity.
  - rewrite (small_bits a 14 k H L). symmetry. apply orb_false_r.
Qed.
Lemma aid_get a : aid_aid a = a mod 16384.
Proof. unfold aid_aid, lget. change (lpos AssociationID_layout "internal_aid") with (Some (0, 14)).
  cbv beta iota. rewrite bf_get_arith, N.div_1_r. reflexivity. Qed.
Lemma aid_checked_cases n :
  aid_new_checked n = if (1 <=? n mod 16384) && (n mod 16384 <=? 2007) then Some (49152 + n mod 16384) else None.
Proof.
  unfold aid_new_checked. rewrite aid_mask. destruct (_ && _) eqn:E; [|reflexivity].
  rewrite aid_set; [reflexivity|]. apply N.mod_lt. lia.
Qed.
Lemma aid_checked_spec n :
  (forall a, aid_new_checked n = Some a -> aid_aid a = n mod 16384 /\ aid_into_bits a = 49152 + n mod 16384
     /\ aid_new_checked (aid_into_bits a) = Some a /\ aid_new_checked (aid_aid a) = Some a) /\
  ((exists a, aid_new_checked n = Some a) <-> 1 <= n mod 16384 <= 2007).
Proof.
  pose proof (aid_checked_cases n) as C.
  assert (Hm : n mod 16384 < 16384) by (apply N.mod_lt; discriminate).
  set (m := n mod 16384) in *. clearbody m. rewrite C.
  destruct (N.leb_spec 1 m) as [L1|L1]; cbn [andb].
  2:{ split; [discriminate|]. split; [intros [a X]; discriminate|]. intros [H _]. now apply N.lt_nge in L1. }
  destruct (N.leb_spec m 2007) as [L2|L2].
  2:{ split; [discriminate|]. split; [intros [a X]; discriminate|]. intros [_ H]. now apply N.lt_nge in L2. }
  split; [|split; eauto].
  intros a E. assert (Ea : a = 49152 + m) by congruence. subst a. clear E.
  assert (M : (49152 + m) mod 16384 = m).
  { change 49152 with (3 * 16384). rewrite N.add_comm, N.mod_add by discriminate. now apply N.mod_small. }
  assert (K : forall k, k mod 16384 = m -> aid_new_checked k = Some (49152 + m)).
  { intros k Ek. rewrite aid_checked_cases, Ek. apply N.leb_le in L1, L2. rewrite L1, L2. reflexivity. }
  rewrite aid_get, M. unfold aid_into_bits. repeat split; apply K; [exact M|now apply N.mod_small].
Qed.
Lemma aid_unchecked_agrees {cfg : Cfg} n : 1 <= n <= 2007 -> exists a,
  aid_new_unchecked n = Ok a /\ aid_new_checked n = Some a.
Proof.
  intros H. exists (49152 + n). rewrite aid_checked_cases, (N.mod_small n 16384) by lia.
  replace ((1 <=? n) && (n <=? 2007)) with true by lia. split; [|reflexivity].
  unfold aid_new_unchecked, lwith. change (lpos AssociationID_layout "internal_aid") with (Some (0, 14)).
  cbv iota. change (N.ones 14) with 16383. replace (16383 <? n) with false by lia. rewrite andb_false_r.
  rewrite <- aid_set by lia. reflexivity.
Qed.

(** ** Layouts *)
Definition padding (nm : string) : bool := String.eqb nm "__" || String.eqb nm "_reserved".
Lemma layouts_standard :
  forallb (fun '(s, (W, lay)) => (lay_width lay =? W) &&
     forallb (fun '(nm, w) => padding nm ||
       match lpos lay nm, std_position s nm with
       | Some (o, w'), Some (o2, w2) => (o =? o2) && (w' =? w2) && (w' =? w)
       | _, _ => false
       end) lay &&
     match lookup s std_positions with
     | Some fs => forallb (fun '(nm, _) => existsb (String.eqb nm) (map fst lay)) fs
     | None => false
     end) all_layouts = true.
Proof. vm_compute. reflexivity. Qed.
Lemma layout_facts s W lay : In (s, (W, lay)) all_layouts ->
  lay_width lay = W /\
  (forall nm w, In (nm, w) lay -> padding nm = false ->
     exists o, lpos lay nm = Some (o, w) /\ std_position s nm = Some (o, w)).
Proof.
  intros H. pose proof layouts_standard as A. rewrite forallb_forall in A. specialize (A _ H).
  cbv beta iota in A. apply andb_prop in A as [A _]. apply andb_prop in A as [A B]. apply N.eqb_eq in A.
  split; [exact A|]. intros nm w Hin P. rewrite forallb_forall in B. specialize (B _ Hin).
  cbv beta iota in B. rewrite P in B. cbn [orb] in B.
  destruct (lpos lay nm) as [[o w']|]; [|discriminate]. destruct (std_position s nm) as [[o2 w2]|]; [|discriminate].
  apply andb_prop in B as [B B3]. apply andb_prop in B as [B1 B2]. apply N.eqb_eq in B1, B2, B3. subst. eauto.
Qed.
Lemma layout_names_complete s nm p : std_position s nm = Some p ->
  exists W lay, In (s, (W, lay)) all_layouts /\ In nm (map fst lay).
Proof.
  intros H. unfold std_position in H. destruct (lookup s std_positions) as [fs|] eqn:E; [|discriminate].
  assert (L : exists W lay, In (s, (W, lay)) all_layouts).
  { assert (A : forallb (fun '(s, _) => existsb (fun '(s', _) => String.eqb s s') all_layouts) std_positions = true)
      by (vm_compute; reflexivity).
    assert (I : In (s, fs) std_positions).
    { clear -E. revert E. generalize std_positions. induction l as [|[k v] l IH]; cbn [lookup]; [discriminate|].
      destruct (String.eqb_spec k s) as [->|]; [intros [= ->]; now left|]. intros H. right. auto. }
    rewrite forallb_forall in A. specialize (A _ I). cbv beta iota in A. apply existsb_exists in A as [[s' [W lay]] [I2 E2]].
    apply String.eqb_eq in E2. subst. eauto. }
  destruct L as (W & lay & I). exists W, lay. split; [exact I|].
  pose proof layouts_standard as A. rewrite forallb_forall in A. specialize (A _ I).
  cbv beta iota in A. apply andb_prop in A as [_ A]. rewrite E in A. rewrite forallb_forall in A.
  assert (I3 : In (nm, p) fs).
  { clear -H. induction fs as [|[k v] l IH]; cbn [lookup] in H; [discriminate|].
    destruct (String.eqb_spec k nm) as [->|]; [injection H as ->; now left|]. right. auto. }
  specialize (A _ I3). cbv beta iota in A. apply existsb_exists in A as [x [I4 E4]]. apply String.eqb_eq in E4. now subst.
Qed.
Lemma layout_accessors s W lay nm w : In (s, (W, lay)) all_layouts -> In (nm, w) lay -> padding nm = false ->
  exists o, std_position s nm = Some (o, w) /\ o + w <= W /\
    (forall x, lget lay nm x = (x / 2 ^ o) mod 2 ^ w) /\
    (forall v x, v < 2 ^ w -> x < 2 ^ W ->
       lset lay nm v x < 2 ^ W /\ lget lay nm (lset lay nm v x) = v /\
       (forall nm', nm' <> nm -> lget lay nm' (lset lay nm v x) = lget lay nm' x) /\
       (forall k, k < o \/ o + w <= k -> N.testbit (lset lay nm v x) k = N.testbit x k)).
Proof.
  intros H I P. destruct (layout_facts s W lay H) as [EW F]. destruct (F nm w I P) as (o & E & S).
  exists o. split; [exact S|]. split; [apply lpos_from_ge in E; lia|]. split.
  - intros x. unfold lget. rewrite E. apply bf_get_arith.
  - intros v x Hv Hx. split; [now apply lset_bound|]. split; [now apply (lget_lset lay nm v x o w)|].
    split; [intros nm' N; apply lget_lset_other; congruence|].
    intros k D. now apply (lset_keeps_bits lay nm v x k o w).
Qed.
Lemma layout_disjoint s W lay n1 n2 p1 p2 : In (s, (W, lay)) all_layouts -> n1 <> n2 ->
  lpos lay n1 = Some p1 -> lpos lay n2 = Some p2 -> fst p1 + snd p1 <= fst p2 \/ fst p2 + snd p2 <= fst p1.
Proof. intros _ N E1 E2. destruct p1, p2. eapply lpos_from_disjoint; eassumption. Qed.
(** debug builds: out of range values panic; release builds keep the low bits *)
Lemma lwith_cases {cfg : Cfg} {E} lay nm v x o w : lpos lay nm = Some (o, w) ->
  @lwith cfg E lay nm v x = if overflow_checks && (2 ^ w <=? v) then Panic else Ok (lset lay nm (v mod 2 ^ w) x).
Proof.
  intros P. unfold lwith, lset. rewrite P. rewrite N.ones_equiv.
  assert (K : 2 ^ w <> 0) by (apply N.pow_nonzero; lia).
  replace (N.pred (2 ^ w) <? v) with (2 ^ w <=? v) by (destruct (N.leb_spec (2 ^ w) v), (N.ltb_spec (N.pred (2 ^ w)) v); lia).
  destruct (_ && _); [reflexivity|]. f_equal. unfold bf_set. rewrite !N.land_ones, N.mod_mod by exact K. reflexivity.
Qed.
Lemma layout_with {cfg : Cfg} s W lay nm w v x :
  In (s, (W, lay)) all_layouts -> In (nm, w) lay -> padding nm = false ->
  @lwith cfg serr lay nm v x = if overflow_checks && (2 ^ w <=? v) then Panic else Ok (lset lay nm (v mod 2 ^ w) x).
Proof.
  intros H I P. destruct (layout_facts s W lay H) as [_ F]. destruct (F nm w I P) as (o & E & _).
  now apply (lwith_cases lay nm v x o w).
Qed.
Lemma layout_determined s W lay x y : In (s, (W, lay)) all_layouts ->
  x < 2 ^ W -> y < 2 ^ W -> lay_all_eq 0 lay x y -> x = y.
Proof. intros H Hx Hy E. destruct (layout_facts s W lay H) as [<- _]. now apply (lay_ext lay). Qed.
Lemma fcf_parsed_canonical x : x < 65536 -> canonical_frame_type (fcf_frame_type x).
Proof. intros _. apply frame_type_from_canonical. apply (lget_bound _ _ x 2 6). reflexivity. Qed.
Lemma fcf_flag_bits x : x < 65536 ->
  forall i nm, nth_error ["to_ds"; "from_ds"; "more_fragments"; "retry"; "pwr_mgmt"; "more_data"; "protected"; "order"]%string i = Some nm ->
  lgetb FCFFlags_layout nm (fcf_flags x) = N.testbit x (8 + N.of_nat i).
Proof.
  intros _ i nm H.
  assert (E : forall o, (o < 8) -> N.testbit (fcf_flags x) o = N.testbit x (8 + o)).
  { intros o Ho. unfold fcf_flags, lget. rewrite fcf_pos_flags, bf_get_bit.
    destruct (N.ltb_spec o 8); [|lia]. cbn [andb]. f_equal. lia. }
  do 8 (destruct i as [|i]; [cbn in H; injection H as <-; erewrite lgetb_bit by reflexivity; now rewrite E|]).
  cbn in H. destruct i; discriminate.
Qed.
