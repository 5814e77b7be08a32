(** What built frames hold for every chain, and which built frames can be read back at all. *)
From Verif Require Import Base SpecBase BaseFacts Bits Layouts Enums Common Mgmt SpecMgmt Data SpecData Builder SpecBuilder BuilderFacts BuilderFacts2.

Section G.
Variables (to from amsdu : bool) (f : AddressField).
Definition go (cs : list Call) := fold_left (really_supplies to from amsdu f) cs (None, false).
Lemma go_snoc cs c : go (cs ++ [c]) = really_supplies to from amsdu f (go cs) c.
Proof. unfold go. now rewrite fold_left_app. Qed.
Lemma go_none cs : (forall c, In c cs -> address_call c = None) -> go cs = (None, false).
Proof.
  induction cs as [|c cs IH] using rev_ind; intros H; [reflexivity|]. rewrite go_snoc, IH by (intros d D; apply H, in_app_iff; now left).
  cbn. unfold supplies. assert (C := H c). rewrite in_app_iff in C. rewrite C by (right; now left). destruct c; try discriminate C; reflexivity || (exfalso; specialize (C (or_intror (or_introl eq_refl))); discriminate C).
Qed.
Lemma go_seen cs : snd (go cs) = existsb is_destination cs.
Proof.
  induction cs as [|c cs IH] using rev_ind; [reflexivity|]. rewrite go_snoc, existsb_app. cbn [existsb]. rewrite orb_false_r, <- IH.
  destruct (go cs). reflexivity.
Qed.
End G.

Record Inv2 (cs : list Call) (b : Builder) : Prop := mkInv2 {
  j_from : b_ds b = DS_From -> existsb is_destination cs = false;
  j_fields : forall f, b_field f b = real_field f cs
}.
Lemma real_go f cs : real_field f cs = fst (go (asks_to_ds cs) (asks_from_ds cs) (asks_amsdu cs) f cs).
Proof. reflexivity. Qed.
Lemma real_none f cs : (forall c, In c cs -> address_call c = None) -> real_field f cs = None.
Proof. intros H. rewrite real_go. now rewrite go_none. Qed.
Lemma dest_none cs : (forall c, In c cs -> address_call c = None) -> existsb is_destination cs = false.
Proof.
  intros H. destruct (existsb is_destination cs) eqn:E; [|reflexivity]. apply existsb_exists in E as (c & I & D). specialize (H c I).
  destruct c; discriminate.
Qed.
Lemma neither_seen cs b : Inv cs b -> b_ds b = DS_Neither -> asks_from_ds cs = true -> existsb is_destination cs = true.
Proof.
  intros V D F. assert (H := i_ds _ _ V). unfold b_ds_ok in H. rewrite D in H. destruct H as [_ [H|[(a & I) _]]]; [congruence|].
  apply existsb_exists. eexists. split; [exact I|reflexivity].
Qed.
Lemma real_snoc f cs c : asks_to_ds (cs ++ [c]) = asks_to_ds cs -> asks_from_ds (cs ++ [c]) = asks_from_ds cs -> asks_amsdu (cs ++ [c]) = asks_amsdu cs ->
  real_field f (cs ++ [c]) =
  match supplies (asks_to_ds cs) (asks_from_ds cs && (asks_to_ds cs || negb (existsb is_destination cs))) (asks_amsdu cs) f c with
  | Some a => Some a | None => real_field f cs end.
Proof.
  intros E1 E2 E3. rewrite !real_go, E1, E2, E3, go_snoc.
  assert (S := go_seen (asks_to_ds cs) (asks_from_ds cs) (asks_amsdu cs) f cs).
  destruct (go (asks_to_ds cs) (asks_from_ds cs) (asks_amsdu cs) f cs) as [v s]. cbn [snd] in S. subst s. reflexivity.
Qed.
Lemma step2 cs c b b' : Inv cs b -> Inv2 cs b -> call c b = Some b' -> Inv2 (cs ++ [c]) b'.
Proof.
  intros V W E. assert (V' := inv_step _ _ _ _ V E).
  destruct (address_call c) as [[r a]|] eqn:A.
  - assert (K : asked_flags (cs ++ [c]) = asked_flags cs /\ asks_to_ds (cs ++ [c]) = asks_to_ds cs /\ asks_from_ds (cs ++ [c]) = asks_from_ds cs)
      by (apply flags_plain; destruct c; try discriminate A; exact I).
    destruct K as (_ & K1 & K2).
    assert (K3 : asks_amsdu (cs ++ [c]) = asks_amsdu cs) by (apply amsdu_plain; destruct c; try discriminate A; exact I).
    assert (Hd := i_ds _ _ V). assert (Ha := i_amsdu _ _ V). assert (H4 := i_a4 _ _ V). assert (Ns := neither_seen _ _ V).
    destruct W as [Jf Jv]. unfold b_ds_ok in Hd. clear V V'.
    destruct b as [ds cat ty a1 a2 a3 a4 s4 p fl]. cbn [b_ds b_cat b_type b_a1 b_a2 b_a3 b_a4 b_a4_set b_payload b_flags has_category] in *.
    split.
    + intros D. rewrite existsb_app. cbn [existsb].
      destruct c; try discriminate A; cbn [is_destination]; rewrite ?orb_false_r; cbn [call b_ds b_cat b_type b_a1 b_a2 b_a3 b_a4 b_a4_set b_payload b_flags has_category] in E;
        repeat match type of E with context [match ?x with _ => _ end] => destruct x eqn:?; try discriminate E end; injection E as <-; cbn in D; try discriminate D; auto.
    + intros f. rewrite real_snoc by assumption. rewrite <- Jv. unfold supplies. rewrite A.
      destruct c; try discriminate A; injection A as <- <-; cbn [call b_ds b_cat b_type b_a1 b_a2 b_a3 b_a4 b_a4_set b_payload b_flags has_category] in E;
        repeat match type of E with context [match ?x with _ => _ end] => destruct x eqn:?; try discriminate E end; injection E as <-;
        rewrite ?Ha; try (destruct Hd as [Hd1 Hd2]; rewrite ?Hd1, ?Hd2, ?Jf by reflexivity); try (destruct f; reflexivity).
      all: destruct (asks_from_ds cs); [rewrite Ns by reflexivity|]; try (destruct ty, f; reflexivity).
  - destruct (no_addresses b') eqn:Na.
    + assert (N := i_none _ _ V' Na). split; [intros _; now apply dest_none|].
      intros f. rewrite real_none by exact N. apply no_addresses_fields; [assumption|exact (i_a4 _ _ V')].
    + assert (F : match c with More_fragments | Retry | Power_management | More_data | Protected | Order => True | _ => False end).
      { destruct c; try discriminate A; try exact I; cbn [call] in E; unfold is_fresh, needs_category in E;
          repeat match type of E with context [match ?x with _ => _ end] => destruct x eqn:?; try discriminate E end;
          injection E as <-; cbn in *; try discriminate Na; unfold no_addresses in *; cbn in *; try congruence;
          repeat match goal with H : context [match ?x with _ => _ end] |- _ => destruct x; try discriminate end; congruence. }
      assert (K : asks_to_ds (cs ++ [c]) = asks_to_ds cs /\ asks_from_ds (cs ++ [c]) = asks_from_ds cs /\ asks_amsdu (cs ++ [c]) = asks_amsdu cs).
      { unfold asks_to_ds, asks_from_ds, asks_amsdu. rewrite !asks_snoc. destruct c; try contradiction; rewrite !orb_false_r; auto. }
      destruct K as (K1 & K2 & K3). destruct W as [Jf Jv].
      split.
      * rewrite existsb_app. cbn [existsb]. destruct c; try contradiction; cbn [call] in E; injection E as <-; cbn; rewrite ?orb_false_r; exact Jf.
      * intros f. rewrite real_snoc by assumption. unfold supplies. rewrite A, <- Jv.
        destruct c; try contradiction; cbn [call] in E; injection E as <-; destruct f; reflexivity.
Qed.
Lemma inv2_all cs b : calls cs builder_new = Some b -> Inv2 cs b.
Proof.
  revert b. induction cs as [|c cs IH] using rev_ind; intros b E.
  - injection E as <-. split; [discriminate|]. intros []; reflexivity.
  - rewrite calls_snoc in E. destruct (calls cs builder_new) as [b0|] eqn:B; [|discriminate]. eapply step2; eauto. now apply inv_all.
Qed.
Lemma built_real cs h p : built cs = Some (h, p) -> forall f, field f h = real_field f cs.
Proof.
  unfold built. destruct (calls cs builder_new) as [b|] eqn:B; [|discriminate]. apply inv2_all in B. unfold build.
  destruct (b_a1 b) as [a1|] eqn:E1; [|discriminate]. destruct (b_a2 b) as [a2|] eqn:E2; [|discriminate]. destruct (b_a3 b) as [a3|] eqn:E3; [|discriminate].
  destruct (has_category b); [|discriminate]. intros X f. injection X as <- _. rewrite <- (j_fields _ _ B). destruct f; cbn [b_field field dh_a1 dh_a2 dh_a3 dh_a4]; congruence.
Qed.

(** ** Always exchanged *)
Lemma go_after amsdu f before a after : (forall c, In c before -> match c with Source_address _ | Bssid _ => False | _ => True end) ->
  f = A2 \/ f = A3 -> (forall c, In c (before ++ after) -> match c with Transmitter_address _ => False | _ => True end) ->
  fst (go false true amsdu f (before ++ Destination_address a :: after)) = last_of (supplies false false amsdu f) after.
Proof.
  intros Hb Hf Ht. induction after as [|c after IH] using rev_ind.
  - rewrite go_snoc. assert (G : forall l, (forall c, In c l -> match c with Source_address _ | Bssid _ => False | _ => True end) ->
      (forall c, In c l -> match c with Transmitter_address _ => False | _ => True end) -> fst (go false true amsdu f l) = None).
    { clear - Hf. induction l as [|c l IH] using rev_ind; [reflexivity|]. intros H1 H2. rewrite go_snoc.
      specialize (IH (fun d D => H1 d (in_or_app _ _ _ (or_introl D))) (fun d D => H2 d (in_or_app _ _ _ (or_introl D)))).
      destruct (go false true amsdu f l) as [v s]. cbn [fst] in IH. subst v.
      assert (Ic : In c (l ++ [c])) by (apply in_app_iff; right; now left). specialize (H1 c Ic). specialize (H2 c Ic).
      cbn [really_supplies fst]. unfold supplies. destruct c; try contradiction; destruct Hf as [-> | ->]; destruct s, amsdu; reflexivity. }
    specialize (G before Hb (fun c I => Ht c (in_or_app _ _ _ (or_introl I)))).
    destruct (go false true amsdu f before) as [v s]. cbn [fst] in G. subst v. destruct Hf as [-> | ->]; destruct s, amsdu; reflexivity.
  - assert (R : before ++ Destination_address a :: after ++ [c] = (before ++ Destination_address a :: after) ++ [c]) by (rewrite <- app_assoc; reflexivity).
    rewrite R, go_snoc, last_snoc.
    assert (Ht' : forall d, In d (before ++ after) -> match d with Transmitter_address _ => False | _ => True end)
      by (intros d D; apply Ht; rewrite !in_app_iff in *; tauto). specialize (IH Ht').
    assert (S := go_seen false true amsdu f (before ++ Destination_address a :: after)).
    assert (S' : existsb is_destination (before ++ Destination_address a :: after) = true) by (rewrite existsb_app; cbn; apply orb_true_r).
    rewrite S' in S. destruct (go false true amsdu f (before ++ Destination_address a :: after)) as [v s]. cbn [fst snd] in *. subst v s. reflexivity.
Qed.
Lemma built_exchanged before a after h p s n : let cs := before ++ Destination_address a :: after in
  built cs = Some (h, p) -> asks_from_ds cs = true -> asks_to_ds cs = false ->
  (forall c, In c before -> match c with Source_address _ | Bssid _ => False | _ => True end) ->
  (forall c, In c (before ++ after) -> match c with Transmitter_address _ => False | _ => True end) ->
  last_of (fun c => match c with Source_address x => Some x | _ => None end) after = Some s ->
  last_of (fun c => match c with Bssid x => Some x | _ => None end) after = Some n ->
  reported BSS h = Some s /\ reported Source h = Some n.
Proof.
  intros cs B F T Hb Ht S N. assert (R := built_real _ _ _ B). destruct (built_bits _ _ _ B) as (T' & F' & _). rewrite T in T'. rewrite F in F'.
  destruct (built_inv _ _ _ B) as (b & _ & _ & _ & _ & _ & _ & _ & _ & _ & _ & _ & _ & Q & _).
  assert (E2 := R A2). assert (E3 := R A3). rewrite real_go, T, F in E2, E3. unfold cs in E2, E3.
  rewrite go_after in E2, E3 by auto. cbn [field] in E2, E3.
  assert (X2 : forall am, last_of (supplies false false am A2) after = last_of (fun c => match c with Source_address x => Some x | _ => None end) after).
  { intros am. clear - Ht. induction after as [|c l IH] using rev_ind; [reflexivity|]. rewrite !last_snoc, IH.
    - assert (H := Ht c). rewrite !in_app_iff in H. specialize (H (or_intror (or_intror (or_introl eq_refl)))). destruct c; try contradiction; reflexivity.
    - intros d D. apply Ht. rewrite !in_app_iff in *. tauto. }
  assert (X3 : forall am, last_of (supplies false false am A3) after = last_of (fun c => match c with Bssid x => Some x | _ => None end) after).
  { intros am. clear. induction after as [|c l IH] using rev_ind; [reflexivity|]. rewrite !last_snoc, IH. destruct c; reflexivity. }
  fold cs in E2, E3. rewrite X2, S in E2. rewrite X3, N in E3.
  assert (AM : is_amsdu h = std_amsdu h) by (unfold is_amsdu, std_amsdu; rewrite Q; reflexivity).
  cbn [reported]. unfold bssid, source_address, is_amsdu. rewrite Q.
  assert (TD : to_ds (dh_flags h) = false) by (rewrite (proj1 (CommonFacts.flag_bits _)); exact T').
  assert (FD : from_ds (dh_flags h) = true) by (rewrite (proj1 (proj2 (CommonFacts.flag_bits _))); exact F').
  rewrite TD, FD. cbn. split; congruence.
Qed.

(** ** Frames nobody can receive *)
Section R. Context {cfg : Cfg}.
Lemma read_header_shape from h n : rd_data_header from = Ok (h, n) ->
  (match dh_a4 h with Some _ => true | None => false end) = to_ds (dh_flags h) && from_ds (dh_flags h) /\
  (match dh_qos h with Some _ => true | None => false end) = data_is_qos (dh_subtype h) /\
  (match dh_ht h with Some _ => true | None => false end) = order (dh_flags h).
Proof.
  unfold rd_data_header, rd_opt. intros E.
  repeat match type of E with
         | rbind ?x _ = _ => let G := fresh "G" in destruct x as [[]| |] eqn:G; cbn [rbind] in E; try discriminate E
         | match ?x with _ => _ end = _ => let G := fresh "G" in destruct x eqn:G; cbn [rbind] in E; try discriminate E
         end.
  all: injection E as <- <-; cbn [dh_a4 dh_qos dh_ht dh_flags dh_subtype].
  all: repeat match goal with
         | G : (if ?b then _ else _) = Ok _ |- _ => destruct b eqn:?; [match type of G with rbind ?y _ = _ => destruct y as [[]| |]; try discriminate G end; cbn [rbind] in G|]; injection G as <- <-
         end; auto.
Qed.
Lemma built_readable cs h p fcs frame q : built cs = Some (h, p) -> pread (rd_data fcs) frame 0 = Ok (h, q) ->
  asks_flag Order cs = false /\ (asks_to_ds cs && asks_from_ds cs = true -> fourth_given cs) /\
  (last_of category_of cs = Some Dt_Data \/ last_of category_of cs = Some Dt_Null).
Proof.
  intros B P. destruct (built_bits _ _ _ B) as (T & F & O & _). destruct (built_rest _ _ _ B) as (_ & S & _).
  destruct (built_inv _ _ _ B) as (b & V & _ & C & _ & _ & _ & _ & _ & Sb & _ & _ & _ & Q & Hh).
  assert (R : exists from n, rd_data_header from = Ok (h, n)).
  { unfold pread in P. destruct (gread (rd_data fcs) frame 0) as [[d n]| |] eqn:G; try discriminate P. injection P as ->.
    apply ElementsFacts.gread_inv in G as (_ & m & G & _). unfold rd_data in G. destruct (if fcs then _ else _) as [from| |]; cbn [rbind] in G; try discriminate G.
    destruct (gread rd_data_header from 0) as [[h' o]| |] eqn:G2; cbn [rbind] in G; try discriminate G. apply ElementsFacts.gread_inv in G2 as (_ & m2 & G2 & _).
    destruct (data_has_payload (dh_subtype h')); [destruct (slice_from from o); cbn [rbind] in G; try discriminate G|]; injection G as <- _ _; eauto. }
  destruct R as (from & n & R). apply read_header_shape in R as (R4 & RQ & RH).
  destruct (CommonFacts.flag_bits (dh_flags h)) as (E0 & E1 & E7 & _). rewrite E0, E1, T, F in R4. rewrite E7, O, Hh in RH. rewrite Q in RQ.
  split; [now rewrite <- RH|]. split.
  - intros Both. rewrite Both in R4. destruct (dh_a4 h) as [a|] eqn:A4'; [|discriminate].
    apply andb_true_iff in Both as [Tt Ft]. assert (DL : destination_last cs) by (intros _ X; congruence).
    assert (X := built_fields _ _ _ B DL A4). cbn [field] in X. rewrite A4' in X. symmetry in X. unfold asked_field in X. rewrite Tt, Ft in X.
    destruct (last_some _ _ _ X) as (c & I & Y). exists c, a. auto.
  - rewrite <- S. unfold has_category in C. destruct (b_cat b); try discriminate; cbn in Sb; injection Sb as Sb; rewrite Sb in *; auto; discriminate.
Qed.
End R.
