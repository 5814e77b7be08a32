(** Builder histories, the bytes of the predefined elements, and the optional features in full. *)
From Verif Require Import Base SpecBase BaseFacts Bits Layouts BitsFacts Enums Utf8 Elements SpecElements ElementsFacts
  ElementTypes SpecElementTypes ElementTypesFacts StepsFacts Suites Rsn SpecRsn RsnFacts RsnFacts2 RsnFacts3 RsnFacts4.

Lemma last_given_snoc {A} (arg : RsnCall -> option A) calls c :
  last_given arg (calls ++ [c]) = match arg c with Some a => Some a | None => last_given arg calls end.
Proof. unfold last_given. now rewrite fold_left_app. Qed.
Lemma field_after_snoc {A} (arg : RsnCall -> option A) n d calls c :
  field_after arg n d (calls ++ [c]) =
    match arg c with
    | Some a => Some a
    | None => if n <? call_field c then opt_or (field_after arg n d calls) d else field_after arg n d calls
    end.
Proof.
  unfold field_after. rewrite last_given_snoc, existsb_app. cbn [existsb]. rewrite orb_false_r.
  destruct (arg c); [reflexivity|]. destruct (last_given arg calls).
  - destruct (n <? call_field c); reflexivity.
  - destruct (n <? call_field c); rewrite ?orb_true_r, ?orb_false_r; [|reflexivity].
    destruct (existsb _ calls); reflexivity.
Qed.
Lemma builder_history calls :
  fold_left rsn_call calls rsn_new =
  mkRsn (field_after arg_group 0 Cs_Ccmp128 calls) (field_after arg_pairwise 1 (Arr []) calls)
    (field_after arg_akm 2 (Arr []) calls) (field_after arg_caps 3 0%N calls)
    (field_after arg_pmkids 4 (Arr []) calls) (field_after arg_group_mgmt 5 Cs_Ccmp128 calls).
Proof.
  induction calls as [|c calls IH] using rev_ind; [reflexivity|].
  rewrite fold_left_app, IH. cbn [fold_left]. rewrite !field_after_snoc. destruct c; reflexivity.
Qed.

Section Facts.
Context {cfg : Cfg}.
(** version, group cipher, pairwise ciphers, AKMs, capabilities, then what follows *)
Lemma constants_bytes :
  Writes (wr_rsn WPA_PERSONAL) [1; 0; 0; 15; 172; 2; 1; 0; 0; 15; 172; 2; 1; 0; 0; 15; 172; 2; 0; 0]%N /\
  Writes (wr_rsn WPA_WPA2_PERSONAL) [1; 0; 0; 15; 172; 2; 2; 0; 0; 15; 172; 2; 0; 15; 172; 4; 1; 0; 0; 15; 172; 2; 0; 0]%N /\
  Writes (wr_rsn WPA2_PERSONAL) [1; 0; 0; 15; 172; 4; 1; 0; 0; 15; 172; 4; 1; 0; 0; 15; 172; 2; 0; 0]%N /\
  Writes (wr_rsn WPA2_WPA3_PERSONAL) [1; 0; 0; 15; 172; 4; 1; 0; 0; 15; 172; 4; 2; 0; 0; 15; 172; 2; 0; 15; 172; 8; 192; 0]%N /\
  Writes (wr_rsn WPA3_PERSONAL) [1; 0; 0; 15; 172; 4; 1; 0; 0; 15; 172; 4; 1; 0; 0; 15; 172; 8; 192; 0; 0; 0; 0; 15; 172; 6]%N /\
  Writes (wr_rsn RSN_OWE) [1; 0; 0; 15; 172; 4; 1; 0; 0; 15; 172; 4; 1; 0; 0; 15; 172; 18; 192; 0]%N.
Proof.
  assert (X : forall x bs, In x [WPA_PERSONAL; WPA_WPA2_PERSONAL; WPA2_PERSONAL; WPA2_WPA3_PERSONAL; WPA3_PERSONAL] ->
    match array_view x with Some v => bs = enc_rsn 4 v | None => False end -> Writes (wr_rsn x) bs).
  { intros x bs I E. destruct (constants_array x I) as (v & Ev & O & G & P & L). rewrite Ev in E. subst bs.
    assert (F : length (enc_rsn 4 v) <= 255).
    { pose proof (rsn_measure_spec x v (array_view_shows x v Ev) O) as M. rewrite (rsn_measure_ok x v (array_view_shows x v Ev) O P), P in M. lia. }
    apply rsn_write; auto. now apply array_view_shows. }
  do 5 (split; [apply X; [cbn; tauto|vm_compute; reflexivity]|]).
  eapply Writes_eq; [apply (wr_rsn_W RSN_OWE owe_view); [repeat split|cbn; repeat split; repeat constructor|vm_compute; repeat constructor]|].
  vm_compute. reflexivity.
Qed.
End Facts.

(** ** Optional features in full *)
Lemma mfp_table caps :
  mfp_config caps = match mfpc caps, mfpr caps with
    | false, false => Of_Disabled | false, true => Of_Capable | true, false => Of_Required | true, true => Of_Invalid end.
Proof.
  unfold mfpr, mfpc, mfp_config, lget.
  change (lpos RsnCapabilities_layout "mfp_config") with (Some (6, 2)%N). cbv beta iota.
  pose proof (bf_get_bound 6 2 caps) as B. pose proof (bf_get_bit 6 2 caps 0) as B0. pose proof (bf_get_bit 6 2 caps 1) as B1.
  change (0 + 6)%N with 6%N in B0. change (1 + 6)%N with 7%N in B1. cbn [N.ltb N.compare Pos.compare Pos.compare_cont andb] in B0, B1.
  rewrite <- B0, <- B1. clear B0 B1. change (2 ^ 2)%N with 4%N in B.
  destruct (bf_get 6 2 caps) as [|[[p|p|]|[p|p|]|]]; try lia; vm_compute; reflexivity.
Qed.
Lemma mfp_written x caps :
  mfpr (with_mfp_config x caps) = match x with Of_Disabled | Of_Invalid => false | _ => true end /\
  mfpc (with_mfp_config x caps) = match x with Of_Disabled | Of_Capable => false | _ => true end /\
  forall i, i <> 6%N -> i <> 7%N -> N.testbit (with_mfp_config x caps) i = N.testbit caps i.
Proof.
  unfold mfpr, mfpc, with_mfp_config, lset.
  change (lpos RsnCapabilities_layout "mfp_config") with (Some (6, 2)%N). cbv beta iota.
  split; [rewrite bf_set_bit; destruct x; reflexivity|]. split; [rewrite bf_set_bit; destruct x; reflexivity|].
  intros i H6 H7. rewrite bf_set_bit.
  destruct (andb _ _) eqn:E; [|reflexivity]. exfalso. apply andb_prop in E. destruct E as [E1 E2].
  apply N.leb_le in E1. apply N.ltb_lt in E2. lia.
Qed.
Lemma transition_requires :
  exists caps, rsn_caps WPA2_WPA3_PERSONAL = Some caps /\ rsn_akm WPA2_WPA3_PERSONAL = Some (Arr [Ak_Psk; Ak_Sae]) /\ mfpr caps = true.
Proof. eexists. split; [reflexivity|]. split; [reflexivity|]. vm_compute. reflexivity. Qed.
Lemma compatible_table x y : of_is_compatible x y = true <->
  (of_is_capable x = false /\ of_is_capable y = false) \/ (of_is_required x = true /\ of_is_required y = true).
Proof. destruct x, y; cbn; intuition discriminate. Qed.
