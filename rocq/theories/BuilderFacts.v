(** The builder does what the chain of calls asks for. *)
From Verif Require Import Base BaseFacts Bits Layouts Enums Common Mgmt Data SpecData Builder SpecBuilder.

(** ** Chains, from the end *)
Lemma calls_snoc cs c b : calls (cs ++ [c]) b = match calls cs b with Some b' => call c b' | None => None end.
Proof.
  revert b. induction cs as [|d cs IH]; intros b; cbn [calls app].
  - destruct (call c b); reflexivity.
  - destruct (call d b); [apply IH|reflexivity].
Qed.
Lemma asks_snoc p cs c : asks p (cs ++ [c]) = asks p cs || p c.
Proof. unfold asks. rewrite existsb_app. cbn [existsb]. now rewrite orb_false_r. Qed.
Lemma last_snoc {A} (f : Call -> option A) cs c : last_of f (cs ++ [c]) = match f c with Some a => Some a | None => last_of f cs end.
Proof. unfold last_of. now rewrite fold_left_app. Qed.
Lemma last_none {A} (f : Call -> option A) cs : (forall c, In c cs -> f c = None) -> last_of f cs = None.
Proof.
  induction cs as [|c cs IH] using rev_ind; intros H; [reflexivity|]. rewrite last_snoc, H by (apply in_app_iff; right; left; reflexivity).
  apply IH. intros d D. apply H, in_app_iff. now left.
Qed.
Lemma last_some {A} (f : Call -> option A) cs a : last_of f cs = Some a -> exists c, In c cs /\ f c = Some a.
Proof.
  induction cs as [|c cs IH] using rev_ind; [discriminate|]. rewrite last_snoc. destruct (f c) as [x|] eqn:E.
  - intros X. injection X as ->. exists c. split; [apply in_app_iff; right; now left|assumption].
  - intros X. destruct (IH X) as (d & D & F). exists d. split; [apply in_app_iff; now left|assumption].
Qed.
Lemma last_in {A} (f : Call -> option A) cs c a : In c cs -> f c = Some a -> exists b, last_of f cs = Some b.
Proof.
  induction cs as [|d cs IH] using rev_ind; [destruct 1|]. intros I F. rewrite last_snoc. destruct (f d) as [x|] eqn:E; [eauto|].
  apply in_app_iff in I as [I|[->|[]]]; [auto|congruence].
Qed.

(** ** Flags *)
Lemma set_flags to from frag retry pm more prot ord :
  let n := flags_number to from frag retry pm more prot ord in
  lsetb FCFFlags_layout "to_ds"%string true n = flags_number true from frag retry pm more prot ord /\
  lsetb FCFFlags_layout "from_ds"%string true n = flags_number to true frag retry pm more prot ord /\
  lsetb FCFFlags_layout "more_fragments"%string true n = flags_number to from true retry pm more prot ord /\
  lsetb FCFFlags_layout "retry"%string true n = flags_number to from frag true pm more prot ord /\
  lsetb FCFFlags_layout "pwr_mgmt"%string true n = flags_number to from frag retry true more prot ord /\
  lsetb FCFFlags_layout "more_data"%string true n = flags_number to from frag retry pm true prot ord /\
  lsetb FCFFlags_layout "protected"%string true n = flags_number to from frag retry pm more true ord /\
  lsetb FCFFlags_layout "order"%string true n = flags_number to from frag retry pm more prot true.
Proof. destruct to, from, frag, retry, pm, more, prot, ord; vm_compute; repeat split; reflexivity. Qed.
Lemma flags_bits to from frag retry pm more prot ord :
  let n := flags_number to from frag retry pm more prot ord in
  N.testbit n 0 = to /\ N.testbit n 1 = from /\ N.testbit n 2 = frag /\ N.testbit n 3 = retry /\ N.testbit n 4 = pm /\
  N.testbit n 5 = more /\ N.testbit n 6 = prot /\ N.testbit n 7 = ord /\ (n < 256)%N.
Proof. destruct to, from, frag, retry, pm, more, prot, ord; vm_compute; repeat split; reflexivity. Qed.

(** ** The invariant *)
Definition b_field (f : AddressField) (b : Builder) : option bytes :=
  match f with A1 => b_a1 b | A2 => b_a2 b | A3 => b_a3 b | A4 => if b_a4_set b then b_a4 b else None end.
Definition b_ds_ok (cs : list Call) (b : Builder) : Prop :=
  match b_ds b with
  | DS_Unset => asks_to_ds cs = false /\ asks_from_ds cs = false
  | DS_Neither => asks_to_ds cs = false /\
      (asks_from_ds cs = false \/ (exists a, In (Destination_address a) cs) /\ asks_from_ds cs = true)
  | DS_To => asks_to_ds cs = true /\ asks_from_ds cs = false
  | DS_From => asks_to_ds cs = false /\ asks_from_ds cs = true
  | DS_Both => asks_to_ds cs = true /\ asks_from_ds cs = true
  end.
Definition cat_subtype (c : Category) : option DataFrameSubtype :=
  match c with
  | Cat_Unset => None | Cat_Data => Some Dt_Data | Cat_DataNull => Some Dt_Null | Cat_QoS => Some Dt_QoSData | Cat_QoSNull => Some Dt_QoSNull
  end.
Record Inv (cs : list Call) (b : Builder) : Prop := mkInv {
  i_ds : b_ds_ok cs b;
  i_flags : b_flags b = asked_flags cs;
  i_cat : cat_subtype (b_cat b) = last_of category_of cs;
  i_amsdu : asks_amsdu cs = match b_type b with PT_Amsdu => true | _ => false end;
  i_payload : b_payload b = last_of payload_of cs;
  i_type : match b_type b with PT_Unit => b_payload b = None | _ => True end;
  i_null : match b_cat b with Cat_DataNull | Cat_QoSNull => b_payload b = None | _ => True end;
  i_none : no_addresses b = true -> forall c, In c cs -> address_call c = None;
  i_a4 : b_a4_set b = true -> b_ds b = DS_Both;
  i_places : destination_last cs -> forall c r a, In c cs -> address_call c = Some (r, a) -> b_ds b <> DS_Unset -> has_category b = true ->
    places (asks_to_ds cs) (asks_from_ds cs) (asks_amsdu cs) r <> [];
  i_set : (b_ds b = DS_Unset \/ has_category b = false) ->
    b_a3 b = None /\ forall c, In c cs -> match address_call c with Some (Receiver, _) | Some (Transmitter, _) | None => True | _ => False end;
  i_fields : destination_last cs -> forall f, b_field f b = asked_field f cs
}.
Lemma inv_new : Inv [] builder_new.
Proof.
  constructor; try reflexivity; try exact I.
  - split; reflexivity.
  - intros _ c [].
  - discriminate.
  - intros _ c r a [].
  - intros _. split; [reflexivity|intros c []].
  - intros _ []; reflexivity.
Qed.
Lemma destination_last_prefix cs c : asks_from_ds (cs ++ [c]) = asks_from_ds cs -> asks_to_ds (cs ++ [c]) = asks_to_ds cs ->
  destination_last (cs ++ [c]) -> destination_last cs.
Proof.
  intros E1 E2 H F T before a after d -> D. rewrite <- E1 in F. rewrite <- E2 in T.
  apply (H F T before a (after ++ [c]) d).
  - now rewrite <- app_assoc.
  - apply in_app_iff. now left.
Qed.
Lemma no_destination cs c : asks_from_ds cs = true -> asks_to_ds cs = false -> (exists a, In (Destination_address a) cs) ->
  match c with Source_address _ | Bssid _ => True | _ => False end -> ~ destination_last (cs ++ [c]).
Proof.
  intros F T (a & I) C H. apply in_split in I as (l1 & l2 & ->).
  specialize (H).  unfold destination_last in H.
  assert (F' : asks_from_ds ((l1 ++ Destination_address a :: l2) ++ [c]) = true) by (unfold asks_from_ds in *; rewrite asks_snoc, F; reflexivity).
  assert (T' : asks_to_ds ((l1 ++ Destination_address a :: l2) ++ [c]) = false).
  { unfold asks_to_ds in *. rewrite asks_snoc, T. destruct c; reflexivity || contradiction. }
  specialize (H F' T' l1 a (l2 ++ [c]) c). destruct c; try contradiction; (apply H; [now rewrite <- app_assoc|apply in_app_iff; right; now left]).
Qed.

(** ** Steps *)
Lemma no_addresses_fields b : no_addresses b = true -> (b_a4_set b = true -> b_ds b = DS_Both) -> forall f, b_field f b = None.
Proof.
  unfold no_addresses. destruct (b_a1 b) eqn:E1; [discriminate|]. destruct (b_a2 b) eqn:E2; [discriminate|]. destruct (b_a3 b) eqn:E3; [discriminate|].
  intros H _ []; cbn [b_field]; try assumption. destruct (b_a4_set b); [discriminate|reflexivity].
Qed.
Lemma asked_none f cs : (forall c, In c cs -> address_call c = None) -> asked_field f cs = None.
Proof. intros H. apply last_none. intros c C. unfold supplies. now rewrite (H c C). Qed.
Lemma snoc_none cs c : (forall d, In d cs -> address_call d = None) -> address_call c = None -> forall d, In d (cs ++ [c]) -> address_call d = None.
Proof. intros H C d D. apply in_app_iff in D as [D|[<-|[]]]; auto. Qed.
(** calls that change nothing about the addresses, on a builder without addresses *)
Lemma step_plain cs c b b' : Inv cs b -> no_addresses b = true -> no_addresses b' = true -> address_call c = None ->
  b_a1 b' = None -> b_a2 b' = None -> b_a3 b' = None -> b_a4_set b' = false ->
  b_ds_ok (cs ++ [c]) b' -> b_flags b' = asked_flags (cs ++ [c]) -> cat_subtype (b_cat b') = last_of category_of (cs ++ [c]) ->
  asks_amsdu (cs ++ [c]) = (match b_type b' with PT_Amsdu => true | _ => false end) ->
  b_payload b' = last_of payload_of (cs ++ [c]) -> (match b_type b' with PT_Unit => b_payload b' = None | _ => True end) ->
  (match b_cat b' with Cat_DataNull | Cat_QoSNull => b_payload b' = None | _ => True end) ->
  Inv (cs ++ [c]) b'.
Proof.
  intros V Na Na' Ac E1 E2 E3 E4 D F C A P T Nl. assert (None_ := snoc_none _ c (i_none _ _ V Na) Ac).
  constructor; try assumption.
  - intros _. exact None_.
  - rewrite E4. discriminate.
  - intros _ d r a I X. rewrite (None_ d I) in X. discriminate.
  - intros _. split; [assumption|]. intros d I. now rewrite (None_ d I).
  - intros _ f. rewrite asked_none by exact None_. destruct f; cbn [b_field]; try assumption. now rewrite E4.
Qed.
Ltac fresh_inv H := unfold is_fresh, needs_category in H; repeat match type of H with context [match ?x with _ => _ end] => destruct x eqn:?; try discriminate H end.
Lemma no_addresses_inv b : no_addresses b = true -> b_a1 b = None /\ b_a2 b = None /\ b_a3 b = None /\ b_a4_set b = false.
Proof.
  unfold no_addresses. destruct (b_a1 b); [discriminate|]. destruct (b_a2 b); [discriminate|]. destruct (b_a3 b); [discriminate|].
  destruct (b_a4_set b); [discriminate|]. auto.
Qed.
Lemma flags_plain cs c : match c with To_ds | From_ds | To_and_from_ds | More_fragments | Retry | Power_management | More_data | Protected | Order => False | _ => True end ->
  asked_flags (cs ++ [c]) = asked_flags cs /\ asks_to_ds (cs ++ [c]) = asks_to_ds cs /\ asks_from_ds (cs ++ [c]) = asks_from_ds cs.
Proof.
  intros C. unfold asked_flags, asks_to_ds, asks_from_ds, asks_flag. rewrite !asks_snoc.
  destruct c; try contradiction; rewrite !orb_false_r; auto.
Qed.
Lemma amsdu_plain cs c : match c with Payload _ _ | Payload_amsdu _ => False | _ => True end -> asks_amsdu (cs ++ [c]) = asks_amsdu cs.
Proof. intros C. unfold asks_amsdu. rewrite asks_snoc. destruct c; try contradiction; apply orb_false_r. Qed.
Lemma ds_ok_same cs c b ds : asks_to_ds (cs ++ [c]) = asks_to_ds cs -> asks_from_ds (cs ++ [c]) = asks_from_ds cs ->
  b_ds_ok cs b -> ds = b_ds b -> forall b', b_ds b' = ds -> b_ds_ok (cs ++ [c]) b'.
Proof.
  intros E1 E2 H -> b' Hb. unfold b_ds_ok in *. rewrite Hb, E1, E2. destruct (b_ds b); try assumption.
  destruct H as [T [F|[(a & I) F]]]; split; auto. right. split; [|assumption]. exists a. apply in_app_iff. now left.
Qed.
Lemma step_ds cs c b b' : Inv cs b -> is_fresh b = true ->
  match c with Neither_to_nor_from_ds | To_ds | From_ds | To_and_from_ds => True | _ => False end -> call c b = Some b' -> Inv (cs ++ [c]) b'.
Proof.
  intros V Fr C E. assert (Fr2 := Fr). unfold is_fresh in Fr2.
  destruct (b_ds b) eqn:Hds; try discriminate Fr2. destruct (b_cat b) eqn:Hcat; try discriminate Fr2.
  destruct (b_type b) eqn:Hty; try discriminate Fr2. destruct (no_addresses_inv b Fr2) as (E1 & E2 & E3 & E4).
  assert (Hp := i_type _ _ V). rewrite Hty in Hp. assert (Hd := i_ds _ _ V). unfold b_ds_ok in Hd. rewrite Hds in Hd. destruct Hd as [Ht Hf].
  assert (Hfl := i_flags _ _ V). unfold asked_flags in Hfl.
  pose proof (set_flags (asks_to_ds cs) (asks_from_ds cs) (asks_flag More_fragments cs) (asks_flag Retry cs)
    (asks_flag Power_management cs) (asks_flag More_data cs) (asks_flag Protected cs) (asks_flag Order cs)) as SF.
  pose proof (set_flags true (asks_from_ds cs) (asks_flag More_fragments cs) (asks_flag Retry cs)
    (asks_flag Power_management cs) (asks_flag More_data cs) (asks_flag Protected cs) (asks_flag Order cs)) as SF2.
  cbv zeta in SF, SF2. rewrite <- Hfl in SF. destruct SF as (S1 & S2 & _). destruct SF2 as (_ & S3 & _).
  assert (Ha := i_amsdu _ _ V). rewrite Hty in Ha. assert (Hc := i_cat _ _ V). rewrite Hcat in Hc. assert (Hpay := i_payload _ _ V).
  destruct c; try contradiction; cbn [call] in E; rewrite Fr in E; injection E as <-;
    (eapply step_plain; [exact V|exact Fr2|exact Fr2|reflexivity|exact E1|exact E2|exact E3|exact E4|..]);
    cbn [b_ds_ok with_ds b_ds b_flags b_cat b_type b_payload]; rewrite ?Hcat, ?Hty; cbn [cat_subtype];
    rewrite ?last_snoc; cbn [category_of payload_of]; try (exact Hc || exact Hpay || exact Hp || exact I);
    try (rewrite amsdu_plain by exact I; exact Ha).
  all: try (unfold b_ds_ok; cbn [b_ds]; unfold asks_to_ds, asks_from_ds in *; rewrite !asks_snoc, Ht, Hf; cbn; auto; fail).
  all: unfold asked_flags, asks_to_ds, asks_from_ds, asks_flag in *; rewrite !asks_snoc; rewrite ?orb_false_r, ?orb_true_r.
  - exact Hfl.
  - exact S1.
  - exact S2.
  - rewrite S1. exact S3.
Qed.
Lemma step_category cs c b b' : Inv cs b ->
  match c with Category_data | Category_data_null | Category_qos | Category_qos_null | Payload _ _ | Payload_amsdu _ => True | _ => False end ->
  call c b = Some b' -> Inv (cs ++ [c]) b'.
Proof.
  intros V C E.
  assert (Fl := flags_plain cs c). assert (Am := amsdu_plain cs c).
  assert (Hty := i_type _ _ V). assert (Ha := i_amsdu _ _ V). assert (Hc := i_cat _ _ V). assert (Hpay := i_payload _ _ V).
  assert (Hds := i_ds _ _ V). assert (Hfl := i_flags _ _ V).
  assert (P : no_addresses b = true /\ b_type b = PT_Unit).
  { destruct c; try contradiction; cbn [call] in E; unfold needs_category in E;
      destruct (b_cat b), (b_type b); try discriminate E; cbn [has_payload_category andb] in E; try (destruct t; discriminate E);
      destruct (no_addresses b); try discriminate E; try (destruct t; discriminate E); auto. }
  destruct P as [Na Pt]. rewrite Pt in Hty. destruct (no_addresses_inv b Na) as (E1 & E2 & E3 & E4). rewrite Pt in Ha.
  assert (K : asked_flags (cs ++ [c]) = asked_flags cs /\ asks_to_ds (cs ++ [c]) = asks_to_ds cs /\ asks_from_ds (cs ++ [c]) = asks_from_ds cs)
    by (apply Fl; destruct c; try contradiction; exact I).
  destruct K as (K1 & K2 & K3).
  assert (D : forall b'', b_ds b'' = b_ds b -> b_ds_ok (cs ++ [c]) b'') by (intros; eapply ds_ok_same; eauto).
  assert (X : b_ds b' = b_ds b /\ b_flags b' = b_flags b /\ b_a1 b' = None /\ b_a2 b' = None /\ b_a3 b' = None /\ b_a4_set b' = false).
  { destruct c; try contradiction; cbn [call] in E; unfold needs_category in E; rewrite ?Pt, ?Na in E;
      destruct (b_cat b); try discriminate E; try (destruct t; try discriminate E); cbn in E; try discriminate E;
      injection E as <-; cbn; auto 10. }
  destruct X as (X1 & X2 & X3 & X4 & X5 & X6).
  eapply step_plain; try eassumption.
  - unfold no_addresses. now rewrite X3, X4, X5, X6.
  - destruct c; try contradiction; reflexivity.
  - apply D. assumption.
  - rewrite X2, K1. assumption.
  - rewrite last_snoc. destruct c; try contradiction; cbn [call] in E; unfold needs_category in E; rewrite ?Pt, ?Na in E;
      destruct (b_cat b) eqn:Ec; try discriminate E; try (destruct t; try discriminate E); cbn in E; try discriminate E; injection E as <-; cbn; try reflexivity;
      rewrite ?Ec; exact Hc.
  - unfold asks_amsdu in *. rewrite asks_snoc, Ha. destruct c; try contradiction; cbn [call] in E; unfold needs_category in E; rewrite ?Pt, ?Na in E;
      destruct (b_cat b) eqn:Ec; try discriminate E; try (destruct t; try discriminate E); cbn in E; try discriminate E; injection E as <-; cbn; rewrite ?Pt; reflexivity.
  - rewrite last_snoc. destruct c; try contradiction; cbn [call] in E; unfold needs_category in E; rewrite ?Pt, ?Na in E;
      destruct (b_cat b) eqn:Ec; try discriminate E; try (destruct t; try discriminate E); cbn in E; try discriminate E; injection E as <-; cbn; try reflexivity;
      congruence.
  - destruct c; try contradiction; cbn [call] in E; unfold needs_category in E; rewrite ?Pt, ?Na in E;
      destruct (b_cat b) eqn:Ec; try discriminate E; try (destruct t; try discriminate E); cbn in E; try discriminate E; injection E as <-; cbn; rewrite ?Pt; auto.
  - destruct c; try contradiction; cbn [call] in E; unfold needs_category in E; rewrite ?Pt, ?Na in E;
      destruct (b_cat b) eqn:Ec; try discriminate E; try (destruct t; try discriminate E); cbn in E; try discriminate E; injection E as <-; cbn; rewrite ?Ec; auto.
Qed.
Lemma step_flag cs c b b' : Inv cs b ->
  match c with More_fragments | Retry | Power_management | More_data | Protected | Order => True | _ => False end ->
  call c b = Some b' -> Inv (cs ++ [c]) b'.
Proof.
  intros V C E. assert (Hfl := i_flags _ _ V). unfold asked_flags in Hfl.
  assert (K : asks_to_ds (cs ++ [c]) = asks_to_ds cs /\ asks_from_ds (cs ++ [c]) = asks_from_ds cs /\ asks_amsdu (cs ++ [c]) = asks_amsdu cs).
  { unfold asks_to_ds, asks_from_ds, asks_amsdu. rewrite !asks_snoc. destruct c; try contradiction; rewrite !orb_false_r; auto. }
  destruct K as (K1 & K2 & K3).
  assert (Ac : address_call c = None) by (destruct c; try contradiction; reflexivity).
  assert (S : b_ds b' = b_ds b /\ b_cat b' = b_cat b /\ b_type b' = b_type b /\ b_a1 b' = b_a1 b /\ b_a2 b' = b_a2 b /\ b_a3 b' = b_a3 b /\
    b_a4 b' = b_a4 b /\ b_a4_set b' = b_a4_set b /\ b_payload b' = b_payload b) by (destruct c; try contradiction; cbn [call] in E; injection E as <-; cbn; auto 10).
  destruct S as (S1 & S2 & S3 & S4 & S5 & S6 & S7 & S8 & S9).
  constructor.
  - eapply ds_ok_same; eauto. exact (i_ds _ _ V).
  - pose proof (set_flags (asks_to_ds cs) (asks_from_ds cs) (asks_flag More_fragments cs) (asks_flag Retry cs)
      (asks_flag Power_management cs) (asks_flag More_data cs) (asks_flag Protected cs) (asks_flag Order cs)) as SF.
    cbv zeta in SF. rewrite <- Hfl in SF. destruct SF as (_ & _ & F2 & F3 & F4 & F5 & F6 & F7).
    destruct c; try contradiction; cbn [call] in E; injection E as <-; cbn [with_flag b_flags];
      unfold asked_flags; rewrite K1, K2; unfold asks_flag in *; rewrite !asks_snoc; rewrite ?orb_false_r, ?orb_true_r; assumption.
  - rewrite S2, last_snoc. destruct c; try contradiction; cbn [category_of]; exact (i_cat _ _ V).
  - rewrite S3, K3. exact (i_amsdu _ _ V).
  - rewrite S9, last_snoc. destruct c; try contradiction; cbn [payload_of]; exact (i_payload _ _ V).
  - rewrite S3, S9. exact (i_type _ _ V).
  - rewrite S2, S9. exact (i_null _ _ V).
  - intros Na. apply snoc_none; [|assumption]. apply (i_none _ _ V). unfold no_addresses in *. now rewrite S4, S5, S6, S8 in Na.
  - rewrite S8, S1. exact (i_a4 _ _ V).
  - intros DL d r a I X. apply destination_last_prefix in DL; [|assumption|assumption].
    unfold has_category. rewrite S1, S2, K1, K2, K3. apply in_app_iff in I as [I|[<-|[]]]; [exact (i_places _ _ V DL d r a I X)|congruence].
  - unfold has_category. rewrite S1, S2, S6. intros U. destruct (i_set _ _ V U) as [U1 U2]. split; [assumption|].
    intros d I. apply in_app_iff in I as [I|[<-|[]]]; [exact (U2 d I)|now rewrite Ac].
  - intros DL f. apply destination_last_prefix in DL; [|assumption|assumption].
    assert (Q := i_fields _ _ V DL f). unfold asked_field in *. rewrite K1, K2, K3, last_snoc.
    replace (supplies (asks_to_ds cs) (asks_from_ds cs) (asks_amsdu cs) f c) with (@None bytes) by (unfold supplies; now rewrite Ac).
    rewrite <- Q. destruct f; cbn [b_field]; rewrite ?S4, ?S5, ?S6, ?S7, ?S8; reflexivity.
Qed.
(** an address call; [written] says what happened to the fields *)
Lemma step_address_gen cs c b b' r a : Inv cs b -> address_call c = Some (r, a) ->
  b_cat b' = b_cat b -> b_type b' = b_type b -> b_payload b' = b_payload b -> b_flags b' = b_flags b ->
  no_addresses b' = false -> (b_a4_set b' = true -> b_ds b' = DS_Both) ->
  b_ds_ok (cs ++ [c]) b' -> (b_ds b' = DS_Unset <-> b_ds b = DS_Unset) ->
  (destination_last (cs ++ [c]) -> b_ds b <> DS_Unset -> has_category b = true -> places (asks_to_ds cs) (asks_from_ds cs) (asks_amsdu cs) r <> []) ->
  ((b_ds b = DS_Unset \/ has_category b = false) -> b_a3 b' = b_a3 b /\ match r with Receiver | Transmitter => True | _ => False end) ->
  (destination_last (cs ++ [c]) -> forall f, b_field f b' =
     if existsb (field_eqb f) (places (asks_to_ds cs) (asks_from_ds cs) (asks_amsdu cs) r) then Some a else b_field f b) ->
  Inv (cs ++ [c]) b'.
Proof.
  intros V Ac S2 S3 S9 S0 Na A4 D U Pl St Wr.
  assert (K : asked_flags (cs ++ [c]) = asked_flags cs /\ asks_to_ds (cs ++ [c]) = asks_to_ds cs /\ asks_from_ds (cs ++ [c]) = asks_from_ds cs)
    by (apply flags_plain; destruct c; try discriminate Ac; exact I).
  destruct K as (K0 & K1 & K2).
  assert (K3 : asks_amsdu (cs ++ [c]) = asks_amsdu cs) by (apply amsdu_plain; destruct c; try discriminate Ac; exact I).
  constructor; try assumption.
  - rewrite S0, K0. exact (i_flags _ _ V).
  - rewrite S2, last_snoc. destruct c; try discriminate Ac; cbn [category_of]; exact (i_cat _ _ V).
  - rewrite S3, K3. exact (i_amsdu _ _ V).
  - rewrite S9, last_snoc. destruct c; try discriminate Ac; cbn [payload_of]; exact (i_payload _ _ V).
  - rewrite S3, S9. exact (i_type _ _ V).
  - rewrite S2, S9. exact (i_null _ _ V).
  - rewrite Na. discriminate.
  - intros DL d r' a' I X. unfold has_category. rewrite S2, K1, K2, K3. intros U1 U2.
    assert (U3 : b_ds b <> DS_Unset) by tauto. apply in_app_iff in I as [I|[<-|[]]].
    + apply destination_last_prefix in DL; [|assumption|assumption]. exact (i_places _ _ V DL d r' a' I X U3 U2).
    + rewrite Ac in X. injection X as <- <-. exact (Pl DL U3 U2).
  - unfold has_category. rewrite S2. intros U1. assert (U2 : b_ds b = DS_Unset \/ has_category b = false) by (unfold has_category; tauto).
    destruct (i_set _ _ V U2) as [V1 V2]. destruct (St U2) as [St1 St2]. split; [congruence|].
    intros d I. apply in_app_iff in I as [I|[<-|[]]]; [exact (V2 d I)|rewrite Ac; destruct r; try contradiction; exact Logic.I].
  - intros DL f. rewrite (Wr DL). apply destination_last_prefix in DL; [|assumption|assumption].
    assert (Q := i_fields _ _ V DL f). unfold asked_field in *. rewrite K1, K2, K3, last_snoc.
    unfold supplies at 1. rewrite Ac. destruct (existsb _ _); [reflexivity|exact Q].
Qed.
Lemma step_address cs c b b' : Inv cs b -> address_call c <> None -> call c b = Some b' -> Inv (cs ++ [c]) b'.
Proof.
  intros V Ac E. destruct (address_call c) as [[r a]|] eqn:Ea; [clear Ac|congruence].
  assert (K : asked_flags (cs ++ [c]) = asked_flags cs /\ asks_to_ds (cs ++ [c]) = asks_to_ds cs /\ asks_from_ds (cs ++ [c]) = asks_from_ds cs)
    by (apply flags_plain; destruct c; try discriminate Ea; exact I).
  destruct K as (_ & K1 & K2). assert (Hd := i_ds _ _ V). assert (Ha := i_amsdu _ _ V). assert (H4 := i_a4 _ _ V).
  assert (Bad : forall Z : Prop, asks_from_ds cs = true -> asks_to_ds cs = false -> (exists a, In (Destination_address a) cs) ->
     match c with Source_address _ | Bssid _ => True | _ => False end -> destination_last (cs ++ [c]) -> Z).
  { intros Z A B X Y W. exfalso. exact (no_destination cs c A B X Y W). }
  assert (Same : forall b'', b_ds b'' = b_ds b -> b_ds_ok (cs ++ [c]) b'') by (intros; eapply ds_ok_same; eauto).
  unfold b_ds_ok in Hd.
  assert (Arg := step_address_gen cs c b b' r a V Ea). clear V. unfold b_ds_ok in Arg, Same.
  destruct b as [ds cat ty a1 a2 a3 a4 s4 p fl]. cbn [b_ds b_cat b_type b_a1 b_a2 b_a3 b_a4 b_a4_set b_payload b_flags has_category] in *.
  destruct c; try discriminate Ea; injection Ea as <- <-; cbn [call b_ds b_cat b_type b_a1 b_a2 b_a3 b_a4 b_a4_set b_payload b_flags has_category] in E;
    repeat match type of E with context [match ?x with _ => _ end] => destruct x eqn:?; try discriminate E end; injection E as <-;
    cbn [with_a1 with_a2 with_a3 with_a4 with_ds from_ds_destination b_ds b_cat b_type b_a1 b_a2 b_a3 b_a4 b_a4_set b_payload b_flags has_category] in Arg.
  all: apply Arg; try reflexivity; try assumption; try (intros; discriminate); try (intros; congruence); try (split; intros; congruence).
  all: clear Arg; try match goal with |- context [no_addresses] => cbn; destruct a1, a2, a3; reflexivity end.
  all: try match goal with |- _ \/ _ -> _ => cbn; intros [X|X]; split; (reflexivity || exact I || congruence) end.
  all: try (apply (Same (mkB _ cat ty a1 a2 a3 a4 s4 p fl) eq_refl)).
  all: repeat match goal with H : _ = None |- _ => clear H end.
  all: rewrite ?K1, ?K2; try (destruct Hd as [Hd1 Hd2]; rewrite ?Hd1 in * ); rewrite ?Ha.
  all: try match goal with |- destination_last _ -> forall f, _ =>
         intros DL f; cbn [with_a1 with_a2 with_a3 with_a4 with_ds from_ds_destination b_field b_ds b_cat b_type b_a1 b_a2 b_a3 b_a4 b_a4_set b_payload b_flags] end.
  all: try match goal with |- destination_last _ -> _ <> _ -> _ => intros DL _ _ end.
  all: try (destruct f; reflexivity).
  all: try (destruct Hd2 as [Hd2|[Hx Hd2]]; [|try (refine (Bad _ _ _ _ _ DL); (assumption || exact I || reflexivity))]).
  all: try (rewrite Hd2; destruct ty; try discriminate; destruct f; reflexivity).
  all: try (rewrite Hd2; discriminate).
  split; [reflexivity|]. right. split; [exists a0; apply in_app_iff; right; now left|assumption].
Qed.
Lemma inv_step cs c b b' : Inv cs b -> call c b = Some b' -> Inv (cs ++ [c]) b'.
Proof.
  intros V E. destruct (address_call c) eqn:A; [eapply step_address; eauto; congruence|].
  destruct c; try discriminate A; try (eapply step_category; eauto; exact I); try (eapply step_flag; eauto; exact I);
    (eapply step_ds; eauto; try exact I); cbn [call] in E; destruct (is_fresh b); congruence.
Qed.
Lemma inv_all cs b : calls cs builder_new = Some b -> Inv cs b.
Proof.
  revert b. induction cs as [|c cs IH] using rev_ind; intros b E; [injection E as <-; exact inv_new|].
  rewrite calls_snoc in E. destruct (calls cs builder_new) as [b0|] eqn:B; [|discriminate]. eapply inv_step; eauto.
Qed.

(** ** Built frames *)
Lemma built_inv cs h p : built cs = Some (h, p) -> exists b, Inv cs b /\ b_ds b <> DS_Unset /\ has_category b = true /\
  Some (dh_a1 h) = b_field A1 b /\ Some (dh_a2 h) = b_field A2 b /\ Some (dh_a3 h) = b_field A3 b /\ dh_a4 h = b_field A4 b /\
  dh_flags h = b_flags b /\ Some (dh_subtype h) = cat_subtype (b_cat b) /\ p = b_payload b /\
  dh_duration h = 0%N /\ dh_seq h = 0%N /\ dh_qos h = None /\ dh_ht h = None.
Proof.
  unfold built. destruct (calls cs builder_new) as [b|] eqn:B; [|discriminate]. apply inv_all in B. unfold build.
  destruct (b_a1 b) as [a1|] eqn:E1; [|discriminate]. destruct (b_a2 b) as [a2|] eqn:E2; [|discriminate]. destruct (b_a3 b) as [a3|] eqn:E3; [|discriminate].
  destruct (has_category b) eqn:C; [|discriminate]. intros X. injection X as <- <-. exists b. split; [assumption|].
  split. { intros D. destruct (i_set _ _ B (or_introl D)) as [Q _]. congruence. }
  split; [assumption|]. cbn [dh_a1 dh_a2 dh_a3 dh_a4 dh_flags dh_subtype dh_duration dh_seq dh_qos dh_ht b_field].
  rewrite E1, E2, E3. repeat (split; [reflexivity|]).
  split; [|repeat split]. unfold has_category in C. destruct (b_cat b); [discriminate|reflexivity..].
Qed.
Lemma built_fields cs h p : built cs = Some (h, p) -> destination_last cs -> forall f, field f h = asked_field f cs.
Proof.
  intros E DL f. destruct (built_inv _ _ _ E) as (b & V & _ & _ & E1 & E2 & E3 & E4 & _).
  rewrite <- (i_fields _ _ V DL f). destruct f; cbn [field]; congruence.
Qed.
Lemma built_rest cs h p : built cs = Some (h, p) ->
  dh_flags h = asked_flags cs /\ Some (dh_subtype h) = last_of category_of cs /\ p = last_of payload_of cs /\
  dh_duration h = 0%N /\ dh_seq h = 0%N.
Proof.
  intros E. destruct (built_inv _ _ _ E) as (b & V & _ & _ & _ & _ & _ & _ & F & S & P & D & Q & _).
  rewrite F, S, P. repeat split; try assumption; [exact (i_flags _ _ V)|exact (i_cat _ _ V)|exact (i_payload _ _ V)].
Qed.
Lemma asked_bits cs : N.testbit (asked_flags cs) 0 = asks_to_ds cs /\ N.testbit (asked_flags cs) 1 = asks_from_ds cs /\
  N.testbit (asked_flags cs) 7 = asks_flag Order cs /\ (asked_flags cs < 256)%N.
Proof.
  unfold asked_flags. pose proof (flags_bits (asks_to_ds cs) (asks_from_ds cs) (asks_flag More_fragments cs) (asks_flag Retry cs)
    (asks_flag Power_management cs) (asks_flag More_data cs) (asks_flag Protected cs) (asks_flag Order cs)) as F. cbv zeta in F. tauto.
Qed.
