(** Facts about built frames. *)
From Verif Require Import Base SpecBase BaseFacts Enums Common SpecCommon CommonFacts Mgmt SpecMgmt SpecElementTypes MgmtFacts2 MgmtFacts5
  CryptoHeader Amsdu Data SpecData DataFacts DataFacts2 DataFacts5 Builder SpecBuilder BuilderFacts.

(** ** Roles *)
Lemma field_eqb_refl f : field_eqb f f = true. Proof. destruct f; reflexivity. Qed.
Lemma existsb_in f l : In f l -> existsb (field_eqb f) l = true.
Proof. intros H. apply existsb_exists. exists f. split; [assumption|apply field_eqb_refl]. Qed.
Lemma built_bits cs h p : built cs = Some (h, p) -> N.testbit (dh_flags h) 0 = asks_to_ds cs /\ N.testbit (dh_flags h) 1 = asks_from_ds cs /\
  N.testbit (dh_flags h) 7 = asks_flag Order cs /\ (dh_flags h < 256)%N.
Proof. intros E. destruct (built_rest _ _ _ E) as (-> & _). apply asked_bits. Qed.
Lemma built_place cs h p c r a f : built cs = Some (h, p) -> destination_last cs -> consistent cs -> In c cs -> address_call c = Some (r, a) ->
  In f (places (asks_to_ds cs) (asks_from_ds cs) (asks_amsdu cs) r) -> field f h = Some a.
Proof.
  intros E DL C I A F. rewrite (built_fields _ _ _ E DL f). unfold asked_field.
  assert (X : supplies (asks_to_ds cs) (asks_from_ds cs) (asks_amsdu cs) f c = Some a)
    by (unfold supplies; rewrite A, existsb_in by exact F; reflexivity).
  destruct (last_in _ _ _ _ I X) as [b B]. rewrite B. f_equal.
  destruct (last_some _ _ _ B) as (c' & I' & X'). exact (C f c' c b a I' I X' X).
Qed.
Lemma built_roles cs h p c r a : built cs = Some (h, p) -> destination_last cs -> consistent cs -> In c cs -> address_call c = Some (r, a) ->
  (r = BSS -> asks_to_ds cs && asks_from_ds cs = false) -> reported r h = Some a.
Proof.
  intros E DL C I A NB. destruct (built_inv _ _ _ E) as (b & V & D & K & R). assert (NE := i_places _ _ V DL c r a I A D K).
  destruct R as (_ & _ & _ & _ & _ & _ & _ & _ & _ & Q & _).
  destruct (built_bits _ _ _ E) as (T & F & _).
  assert (AM : is_amsdu h = std_amsdu h) by (unfold is_amsdu, std_amsdu; rewrite Q; reflexivity).
  destruct (roles h AM) as (R1 & R2 & R3 & R4 & R5). unfold std_amsdu in *. rewrite Q in *. rewrite T, F in *.
  assert (P := fun f => built_place _ _ _ _ _ _ f E DL C I A).
  assert (NB' := fun X => R5 (NB X)). clear R5. destruct r; cbn [reported].
  - rewrite R1. exact (P A1 (or_introl eq_refl)).
  - rewrite R2. exact (P A2 (or_introl eq_refl)).
  - rewrite R3. cbn [places] in *. destruct (asks_to_ds cs), (asks_amsdu cs); cbn in *; try (now destruct NE); first [exact (P A1 (or_introl eq_refl))|exact (P A2 (or_introl eq_refl))|exact (P A3 (or_introl eq_refl))|exact (P A4 (or_introl eq_refl))].
  - rewrite R4. cbn [places] in *. destruct (asks_to_ds cs), (asks_from_ds cs), (asks_amsdu cs); cbn in *; try (now destruct NE); first [exact (P A1 (or_introl eq_refl))|exact (P A2 (or_introl eq_refl))|exact (P A3 (or_introl eq_refl))|exact (P A4 (or_introl eq_refl))].
  - specialize (NB' eq_refl). specialize (NB eq_refl). cbn [places] in *. destruct (asks_to_ds cs), (asks_from_ds cs), (asks_amsdu cs); cbn in NB, NB', P; try discriminate NB; rewrite NB'; first [exact (P A1 (or_introl eq_refl))|exact (P A2 (or_introl eq_refl))|exact (P A3 (or_introl eq_refl))|exact (P A4 (or_introl eq_refl))].
Qed.

(** ** Writing and reading *)
Lemma from_calls cs b : calls cs builder_new = Some b -> forall f a, b_field f b = Some a -> exists c r, In c cs /\ address_call c = Some (r, a).
Proof.
  revert b. induction cs as [|c cs IH] using rev_ind; intros b E; [injection E as <-; intros [] a; discriminate|].
  rewrite calls_snoc in E. destruct (calls cs builder_new) as [b0|] eqn:B; [|discriminate]. specialize (IH b0 eq_refl).
  assert (K : forall f a, b_field f b = Some a -> b_field f b0 = Some a \/ exists r, address_call c = Some (r, a)).
  { intros f a H. destruct b0 as [ds cat ty a1 a2 a3 a4 s4 p fl].
    destruct c; cbn [call b_ds b_cat b_type b_a1 b_a2 b_a3 b_a4 b_a4_set b_payload b_flags has_category] in E;
    repeat match type of E with context [match ?x with _ => _ end] => destruct x eqn:?; try discriminate E end; injection E as <-;
    destruct f; cbn in *; try (now left); try discriminate H; right; eexists; injection H as ->; reflexivity. }
  intros f a H. destruct (K f a H) as [X|[r X]].
  - destruct (IH f a X) as (d & r & I & Y). exists d, r. split; [apply in_app_iff; now left|assumption].
  - exists c, r. split; [apply in_app_iff; right; now left|assumption].
Qed.
Lemma built_from_calls cs h p : built cs = Some (h, p) -> good_addresses cs -> address (dh_a1 h) /\ address (dh_a2 h) /\ address (dh_a3 h) /\
  match dh_a4 h with Some a => address a | None => True end.
Proof.
  unfold built. destruct (calls cs builder_new) as [b|] eqn:B; [|discriminate]. intros E G. assert (X := from_calls _ _ B).
  assert (Y : forall f a, b_field f b = Some a -> address a). { intros f a H. destruct (X f a H) as (c & r & I & A). exact (G c r a I A). }
  unfold build in E. destruct (b_a1 b) as [a1|] eqn:E1; [|discriminate]. destruct (b_a2 b) as [a2|] eqn:E2; [|discriminate]. destruct (b_a3 b) as [a3|] eqn:E3; [|discriminate].
  destruct (has_category b); [|discriminate]. injection E as <- _. cbn [dh_a1 dh_a2 dh_a3 dh_a4].
  split; [exact (Y A1 a1 E1)|]. split; [exact (Y A2 a2 E2)|]. split; [exact (Y A3 a3 E3)|].
  specialize (Y A4). cbn [b_field] in Y. destruct (if b_a4_set b then b_a4 b else None); [auto|exact I].
Qed.
Lemma built_fourth cs h p : built cs = Some (h, p) -> (asks_to_ds cs && asks_from_ds cs = true -> fourth_given cs) ->
  match dh_a4 h with Some _ => asks_to_ds cs && asks_from_ds cs = true | None => asks_to_ds cs && asks_from_ds cs = false end.
Proof.
  intros E G. destruct (built_inv _ _ _ E) as (b & V & _ & _ & _ & _ & _ & E4 & _).
  destruct (asks_to_ds cs && asks_from_ds cs) eqn:Both.
  - apply andb_true_iff in Both as [T F]. destruct (G eq_refl) as (c & a & I & S).
    assert (DL : destination_last cs) by (intros _ X; congruence). rewrite E4, (i_fields _ _ V DL A4). unfold asked_field. rewrite T, F.
    destruct (last_in _ _ _ _ I S) as [x ->]. reflexivity.
  - rewrite E4. cbn [b_field]. destruct (b_a4_set b) eqn:S; [|reflexivity]. exfalso.
    assert (X := i_a4 _ _ V S). assert (Y := i_ds _ _ V). unfold b_ds_ok in Y. rewrite X in Y. destruct Y as [Y1 Y2]. rewrite Y1, Y2 in Both. discriminate.
Qed.
Section R. Context {cfg : Cfg}.
Lemma built_ok cs h p body : built cs = Some (h, p) -> good_addresses cs -> asks_flag Order cs = false ->
  (asks_to_ds cs && asks_from_ds cs = true -> fourth_given cs) ->
  match last_of category_of cs with
  | Some Dt_Data => exists c, last_of payload_of cs = Some c /\ wf_bytes body /\ Writes (c_write c) body
  | Some Dt_Null => body = []
  | _ => False
  end -> ok_data_header h /\ payload_ok h p body.
Proof.
  intros E G O F4 C. destruct (built_bits _ _ _ E) as (T & F & O' & L). destruct (built_rest _ _ _ E) as (_ & S & P & D & Q).
  destruct (built_from_calls _ _ _ E G) as (X1 & X2 & X3 & X4). assert (Y4 := built_fourth _ _ _ E F4).
  destruct (built_inv _ _ _ E) as (b & V & _ & _ & _ & _ & _ & _ & _ & Sb & Pb & _ & _ & Qn & Hn).
  rewrite <- S in C. assert (ST : dh_subtype h = Dt_Data \/ dh_subtype h = Dt_Null) by (destruct (dh_subtype h); try contradiction C; auto).
  split.
  - unfold ok_data_header. rewrite T, F, O', O, D, Q, Qn, Hn.
    assert (W : subtype_number h = 0%N \/ subtype_number h = 4%N) by (unfold subtype_number; destruct ST as [-> | ->]; auto).
    split; [destruct ST as [-> | ->]; split; reflexivity|]. split; [exact L|]. split; [vm_compute; reflexivity|]. do 3 (split; [assumption|]).
    split; [vm_compute; reflexivity|]. split.
    { unfold opt_field. destruct (dh_a4 h); rewrite Y4; [|reflexivity]. destruct X4; split; [reflexivity|split; assumption]. }
    split; [destruct W as [-> | ->]; reflexivity|reflexivity].
  - unfold payload_ok. destruct ST as [ST|ST]; rewrite ST in *.
    + destruct C as (c & Pc & W & K). rewrite P, Pc. unfold subtype_number. rewrite ST. split; [reflexivity|split; assumption].
    + assert (N0 := i_null _ _ V). destruct (b_cat b); try discriminate Sb. rewrite Pb, N0. unfold subtype_number. rewrite ST. split; [reflexivity|exact C].
Qed.
Lemma built_round_trip cs h p body fcs : built cs = Some (h, p) -> good_addresses cs -> asks_flag Order cs = false ->
  (asks_to_ds cs && asks_from_ds cs = true -> fourth_given cs) ->
  match last_of category_of cs with
  | Some Dt_Data => exists c, last_of payload_of cs = Some c /\ wf_bytes body /\ Writes (c_write c) body
  | Some Dt_Null => body = []
  | _ => False
  end ->
  let frame := enc_frame fcs (enc_data h body) in
  Writes (wr_data (h, p) fcs) frame /\
  (native_le = true -> pread (rd_data fcs) frame 0 = Ok (h, match p with Some _ => Some body | None => None end)).
Proof.
  intros E G O F4 C. destruct (built_ok cs h p body E G O F4 C) as [H P].
  destruct (data_round_trip h p body fcs H P) as (A & _ & B). split; assumption.
Qed.

(** ** Witnesses *)
Definition slice8 : Container := c_bytes [1; 2; 3; 4; 5; 6; 7; 8]%N.
(** the builder's own example *)
Definition doc_chain : list Call :=
  [From_ds; Category_data; Payload PT_Slice slice8; Destination_address (addr 1); Source_address (addr 2); Bssid (addr 3)].
Lemma from_ds_swapped : exists h p, built doc_chain = Some (h, p) /\ consistent doc_chain /\ ~ destination_last doc_chain /\
  reported Source h = Some (addr 3) /\ reported BSS h = Some (addr 2).
Proof.
  do 2 eexists. split; [reflexivity|]. split; [|split; [|split; reflexivity]].
  - intros f c1 c2 a1 a2 I1 I2. unfold doc_chain in I1, I2. cbn [In] in I1, I2.
    repeat (destruct I1 as [<-|I1]); try contradiction I1; try (destruct f; discriminate);
      repeat (destruct I2 as [<-|I2]); try contradiction I2; destruct f; cbn; congruence.
  - intros DL. exact (DL eq_refl eq_refl [From_ds; Category_data; Payload PT_Slice slice8] (addr 1) _ (Bssid (addr 3)) eq_refl (or_intror (or_introl eq_refl))).
Qed.
Definition amsdu_chain : list Call :=
  [To_and_from_ds; Category_qos; Payload_amsdu slice8; Receiver_address (addr 1); Transmitter_address (addr 2); Bssid (addr 3)].
Lemma both_amsdu : exists h p, built amsdu_chain = Some (h, p) /\ consistent amsdu_chain /\ destination_last amsdu_chain /\
  In (Bssid (addr 3)) amsdu_chain /\ reported BSS h = Some (addr 2) /\ std_amsdu h = false.
Proof.
  do 2 eexists. split; [reflexivity|]. split; [|split; [|split; [|split; reflexivity]]].
  - intros f c1 c2 a1 a2 I1 I2. unfold amsdu_chain in I1, I2. cbn [In] in I1, I2.
    repeat (destruct I1 as [<-|I1]); try contradiction I1; try (destruct f; discriminate);
      repeat (destruct I2 as [<-|I2]); try contradiction I2; destruct f; cbn; congruence.
  - intros _ X. discriminate X.
  - do 5 right. now left.
Qed.
Definition lost (cs : list Call) : Prop := exists h p buf n h' q, built cs = Some (h, p) /\ good_addresses cs /\
  last_of payload_of cs = Some slice8 /\ wr_data (h, p) false (repeat 0%N 64) = Ok (buf, n) /\
  pread (rd_data false) (firstn n buf) 0 = Ok (h', Some q) /\ q <> [1; 2; 3; 4; 5; 6; 7; 8]%N.
End R.
Lemma addr_ok b : (b < 256)%N -> address (addr b).
Proof. intros H. split; [reflexivity|repeat constructor; exact H]. Qed.
Ltac good := let H := fresh in let E := fresh in intros ? ? ? H E; cbn [In] in H;
  repeat (destruct H as [<-|H]); try contradiction H; try discriminate E; injection E as <- <-; apply addr_ok; reflexivity.
Lemma qos_lost {cfg : Cfg} : native_le = true -> lost [Neither_to_nor_from_ds; Category_qos; Payload PT_Slice slice8;
  Destination_address (addr 1); Source_address (addr 2); Bssid (addr 3)].
Proof.
  destruct cfg as [[] [] []]; intros L; try discriminate L; do 6 eexists; (split; [reflexivity|]; split; [good|]; split; [reflexivity|];
    split; [vm_compute; reflexivity|]; split; [vm_compute; reflexivity|discriminate]).
Qed.
Lemma order_lost {cfg : Cfg} : native_le = true -> lost [Neither_to_nor_from_ds; Category_data; Payload PT_Slice slice8;
  Destination_address (addr 1); Source_address (addr 2); Bssid (addr 3); Order].
Proof.
  destruct cfg as [[] [] []]; intros L; try discriminate L; do 6 eexists; (split; [reflexivity|]; split; [good|]; split; [reflexivity|];
    split; [vm_compute; reflexivity|]; split; [vm_compute; reflexivity|discriminate]).
Qed.
Lemma both_lost {cfg : Cfg} : native_le = true -> lost [To_and_from_ds; Category_data; Payload PT_Slice slice8;
  Receiver_address (addr 1); Transmitter_address (addr 2); Destination_address (addr 3)].
Proof.
  destruct cfg as [[] [] []]; intros L; try discriminate L; do 6 eexists; (split; [reflexivity|]; split; [good|]; split; [reflexivity|];
    split; [vm_compute; reflexivity|]; split; [vm_compute; reflexivity|discriminate]).
Qed.
