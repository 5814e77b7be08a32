(** Proofs about what the kind of a reading error tells. *)
From Verif Require Import Base BaseFacts SpecBase Bits Layouts BitsFacts Enums EnumsFacts Common CommonFacts SpecCommon Crc CrcFacts Elements ElementsFacts
  Mgmt SpecMgmt MgmtFacts MgmtFacts2 MgmtFacts3 SpecGeneric GenericFacts ElementTypesFacts Data SpecData DataFacts DataFacts2 Control Amsdu CryptoHeader
  SpecAccept AcceptFacts SpecErrors.

Section Facts.
Context {cfg : Cfg}.

(** ** [BadInput] stays *)
Definition Bad {A} (r : reader A) : Prop := forall a more, r a = Err BadInput -> r (a ++ more) = Err BadInput.
Lemma bad_final {A} (r : reader A) bs : Bad r -> r bs = Err BadInput -> Final r bs.
Proof. intros B E more x _ C. rewrite (B _ more E) in C. discriminate. Qed.
Lemma gread_bad {A} (r : reader A) off a more : Bad r -> gread r a off = Err BadInput -> gread r (a ++ more) off = Err BadInput.
Proof.
  intros X E. unfold gread in *. destruct (end_bad off (length a)) eqn:B; [discriminate|].
  rewrite (end_bad_more _ _ more B). apply end_bad_false in B. rewrite skipn_more by exact B.
  destruct (r (skipn off a)) as [[y m]|e|] eqn:R; try discriminate. assert (e = BadInput) as -> by congruence. now rewrite (X _ more R).
Qed.
Lemma rd_le_bad k : Bad (rd_le k).
Proof. intros a b E. unfold rd_le in *. destruct (length a <? k); discriminate. Qed.
Lemma rd_ne_bad k : Bad (rd_ne k).
Proof. intros a b E. unfold rd_ne, rd_le, rd_be in *. destruct native_le; destruct (length a <? k); discriminate. Qed.
Lemma rd_bytes_bad k : Bad (rd_bytes k).
Proof. intros a b E. unfold rd_bytes in *. destruct (length a <? k); discriminate. Qed.
Lemma rd_u8_bad : Bad rd_u8.
Proof. intros [|c a] b E; discriminate. Qed.
Lemma rd_elements_bad : Bad rd_elements.
Proof. intros a b E. discriminate. Qed.
Lemma rd_opt_bad c k a b off : rd_opt c k a off = Err BadInput -> rd_opt c k (a ++ b) off = Err BadInput.
Proof.
  unfold rd_opt. destruct c; [|discriminate]. intros E. destruct (gread (rd_bytes k) a off) as [[x n]|e|] eqn:G; cbn [rbind] in E; try discriminate.
  assert (e = BadInput) as -> by congruence. now rewrite (gread_bad _ _ _ b (rd_bytes_bad k) G).
Qed.
Ltac bad E b := repeat match type of E with
  | rbind (gread rd_elements ?a ?o) _ = Err _ =>
      exfalso; clear - E; unfold gread, rd_elements in E; destruct (end_bad o (length a)); discriminate
  | rbind (gread ?r ?a ?o) _ = Err _ => let G := fresh "G" in destruct (gread r a o) as [[? ?]|?|] eqn:G; cbn [rbind] in E; try discriminate;
      [(apply (gread_ext _ _ _ b) in G; [|apply rd_le_ext || apply rd_ne_ext || apply rd_bytes_ext || apply rd_u8_ext]); rewrite G; cbn [rbind]
      |injection E as ->; (apply (gread_bad _ _ _ b) in G; [|apply rd_le_bad || apply rd_ne_bad || apply rd_bytes_bad || apply rd_u8_bad || apply rd_elements_bad]); rewrite G; reflexivity]
  | rbind (rd_opt ?c ?k ?a ?o) _ = Err _ => let G := fresh "G" in destruct (rd_opt c k a o) as [[? ?]|?|] eqn:G; cbn [rbind] in E; try discriminate;
      [apply (rd_opt_ext _ _ _ b) in G; rewrite G; cbn [rbind]|injection E as ->; apply (rd_opt_bad _ _ _ b) in G; rewrite G; reflexivity]
  | rbind (slice_from ?a ?o) _ = Err _ => exfalso; clear - E; unfold slice_from in E; destruct (o <=? length a); discriminate
  | (if ?c then _ else _) = Err _ => destruct c; try discriminate; try exact E
  end.
Lemma sp_header_bad code a more : rd_self_protected_header code a = Err BadInput -> rd_self_protected_header code (a ++ more) = Err BadInput.
Proof. intros E. unfold rd_self_protected_header in *. bad E more; exact E. Qed.
Ltac sp E b := match type of E with rbind (rd_self_protected_header ?c ?a) _ = Err _ =>
  let G := fresh "G" in destruct (rd_self_protected_header c a) as [?|?|] eqn:G; cbn [rbind] in E; try discriminate;
  [apply (sp_header_ext _ _ b) in G; rewrite G; cbn [rbind]|injection E as ->; apply (sp_header_bad _ _ b) in G; rewrite G; reflexivity] end.
Lemma bodies_bad : Bad rd_beacon /\ Bad rd_auth /\ Bad rd_assoc_req /\ Bad rd_assoc_resp /\ Bad rd_reason /\ Bad rd_probe_req /\
  Bad rd_raw_action /\ Bad rd_vendor_action /\ Bad rd_mesh_open /\ Bad rd_mesh_confirm /\ Bad rd_mesh_close.
Proof.
  repeat match goal with |- _ /\ _ => split end; intros a b E.
  - unfold rd_beacon in *. bad E b.
  - unfold rd_auth in *. bad E b.
  - unfold rd_assoc_req in *. bad E b.
  - unfold rd_assoc_resp in *. bad E b.
    match type of E with rbind ?c _ = _ => destruct c as [aid|e|] end; cbn [rbind] in *; try discriminate; [bad E b|exact E].
  - unfold rd_reason in *. bad E b.
  - unfold rd_probe_req in *. bad E b.
  - unfold rd_raw_action in *. bad E b.
  - unfold rd_vendor_action in *. bad E b.
  - unfold rd_mesh_open in *. sp E b. bad E b.
  - unfold rd_mesh_confirm in *. sp E b. bad E b. destruct (aid_new_checked _); [bad E b|exact E].
  - unfold rd_mesh_close in *. sp E b. bad E b.
Qed.
Lemma header_never f a : rd_mgmt_header f a <> Err BadInput.
Proof.
  intros E. unfold rd_mgmt_header in E.
  assert (L : forall k o, gread (rd_le k) a o <> Err BadInput) by (intros; unfold gread, rd_le; destruct (end_bad _ _); [discriminate|]; destruct (_ <? _); discriminate).
  assert (B : forall k o, gread (rd_bytes k) a o <> Err BadInput) by (intros; unfold gread, rd_bytes; destruct (end_bad _ _); [discriminate|]; destruct (_ <? _); discriminate).
  repeat match type of E with
  | rbind (gread ?r a ?o) _ = Err _ => let G := fresh "G" in destruct (gread r a o) as [[? ?]|?|] eqn:G; cbn [rbind] in E; try discriminate; [clear G|injection E as ->; first [exact (L _ _ G)|exact (B _ _ G)]]
  | (if ?c then _ else _) = Err _ => destruct c; try discriminate
  end. destruct (gread (rd_bytes 4) a _) as [[? ?]|?|] eqn:G; cbn [rbind] in E; try discriminate. injection E as ->. exact (B _ _ G).
Qed.
Lemma mgmt_bad {W R} (t : BodyType W R) : Bad (bt_read t) -> Bad (rd_mgmt t false).
Proof.
  intros X a b E. unfold rd_mgmt in *. cbn [rbind] in *.
  destruct (gread (rd_le 2) a 0) as [[fcf o]|e|] eqn:G; try discriminate; cbn [rbind] in E.
  2: { injection E as ->. now rewrite (gread_bad _ _ _ b (rd_le_bad 2) G). }
  rewrite (gread_ext _ _ _ b _ _ (rd_le_ext 2) G). cbn [rbind].
  destruct (fcf_frame_type fcf); try exact E.
  destruct (gread (rd_mgmt_header _) a o) as [[h' o2]|e|] eqn:G2; try discriminate; cbn [rbind] in E.
  2: { injection E as ->. exfalso. unfold gread in G2. destruct (end_bad _ _); [discriminate|].
       destruct (rd_mgmt_header _ _) as [[? ?]|e|] eqn:H; try discriminate. injection G2 as ->. now apply header_never in H. }
  rewrite (gread_ext _ _ _ b _ _ (rd_mgmt_header_ext _) G2). cbn [rbind].
  destruct (gread (bt_read t) a o2) as [[r' o3]|e|] eqn:G3; try discriminate; cbn [rbind] in E.
  injection E as ->. now rewrite (gread_bad _ _ _ b X G3).
Qed.

(** ** the type *)
Lemma byte_app0 (bs more : bytes) : bs <> [] -> byte (bs ++ more) 0 = byte bs 0.
Proof. destruct bs; [contradiction|reflexivity]. Qed.
Lemma type_app (bs more : bytes) : bs <> [] -> frame_type_bits (bs ++ more) = frame_type_bits bs.
Proof. intros H. unfold frame_type_bits. now rewrite byte_app0. Qed.

(** ** more bytes for management frames *)
Definition zeros (n : nat) : bytes := repeat 0%N n.
Lemma wf_zeros n : wf_bytes (zeros n).
Proof. apply Forall_forall. intros x H. apply repeat_spec in H as ->. reflexivity. Qed.
(** what a body reader tells, in terms of the bodies that are accepted *)
Definition BodyTells {R} (r : reader R) (P : bytes -> Prop) : Prop :=
  forall body e, wf_bytes body -> body = [] \/ (r body = Err e /\ e <> BadInput) -> exists more, wf_bytes more /\ P (body ++ more).
Definition hsize (m : bytes) : nat := if N.testbit (byte m 1) 7 then 28 else 24.
Lemma mgmt_header_done {W R} (t : BodyType W R) m e : wf_bytes m -> complete_mgmt m -> rd_mgmt t false m = Err e ->
  mgmt_body m = [] \/ bt_read t (mgmt_body m) = Err e.
Proof.
  intros Wm [T L] E. assert (L10 : 10 <= length m) by (destruct (N.testbit _ _); lia).
  destruct (gf_type m Wm L10) as [FT FF]. unfold rd_mgmt in E. cbn [rbind] in E. rewrite gread_le_ok in E by lia. cbn [rbind skipn] in E.
  rewrite FT, FF, T in E. cbn [type_of_bits] in E.
  assert (O : order (byte m 1) = N.testbit (byte m 1) 7) by apply flag_bits.
  unfold gread at 1 in E. rewrite end_bad_lt in E by lia. set (rest := skipn (0 + 2) m) in *.
  assert (LR : length rest = length m - 2) by (unfold rest; now rewrite skipn_length).
  assert (X : exists h, rd_mgmt_header (byte m 1) rest = Ok (h, if N.testbit (byte m 1) 7 then 26 else 22)).
  { unfold rd_mgmt_header. rewrite O. destruct (N.testbit (byte m 1) 7).
    all: repeat (first [rewrite gread_le_ok by lia|rewrite gread_bytes_ok by lia]; cbn [rbind Nat.add]); eauto. }
  destruct X as [h X]. rewrite X in E. cbn [rbind] in E.
  assert (Q : 0 + 2 + (if N.testbit (byte m 1) 7 then 26 else 22) = hsize m) by (unfold hsize; destruct (N.testbit _ _); reflexivity).
  rewrite Q in E. unfold gread in E. change (skipn (hsize m) m) with (mgmt_body m) in E.
  destruct (end_bad (hsize m) (length m)) eqn:B; cbn [rbind] in E.
  - left. apply length_zero_iff_nil. unfold mgmt_body. rewrite skipn_length. fold (hsize m). unfold end_bad in B.
    destruct strict_end; [apply Nat.leb_le in B|apply Nat.ltb_lt in B]; lia.
  - right. destruct (bt_read t (mgmt_body m)) as [[x n]|e'|]; cbn [rbind] in E; congruence.
Qed.
Lemma mgmt_curable {W R} (t : BodyType W R) P bs e : Accepted t P -> BodyTells (bt_read t) P -> wf_bytes bs -> type_fits 0 bs ->
  rd_mgmt t false bs = Err e -> e <> BadInput -> Curable (rd_mgmt t false) bs.
Proof.
  intros A B Wb T E NB.
  assert (K : forall more, wf_bytes more -> complete_mgmt (bs ++ more) -> P (mgmt_body (bs ++ more)) -> Curable (rd_mgmt t false) bs).
  { intros more Wm C Q. destruct (proj2 (A false (bs ++ more) (proj2 (wf_bytes_app _ _) (conj Wb Wm)))) as (x & n & X).
    { exists (bs ++ more). cbn [enc_frame]. auto. }
    exists more, (x, n). auto. }
  assert (C : complete_mgmt bs \/ exists pad, wf_bytes pad /\ complete_mgmt (bs ++ pad) /\ mgmt_body (bs ++ pad) = []).
  { unfold complete_mgmt. destruct (Nat.le_gt_cases (hsize bs) (length bs)) as [L|L].
    - left. destruct T as [->|T]; [cbn in L; lia|]. auto.
    - right. exists (zeros (hsize bs - length bs)). split; [apply wf_zeros|].
      assert (H1 : byte (bs ++ zeros (hsize bs - length bs)) 1 = byte bs 1).
      { unfold byte. destruct (Nat.lt_ge_cases 1 (length bs)); [now rewrite app_nth1|]. rewrite app_nth2 by assumption.
        rewrite (nth_overflow bs) by assumption. apply nth_repeat. }
      assert (Z : length (bs ++ zeros (hsize bs - length bs)) = hsize bs) by (rewrite app_length; unfold zeros; rewrite repeat_length; lia).
      split.
      + rewrite H1. split; [|rewrite Z; reflexivity]. destruct T as [->|T]; [reflexivity|].
        destruct bs; [reflexivity|]. rewrite type_app by discriminate. exact T.
      + unfold mgmt_body. rewrite H1. fold (hsize bs). apply length_zero_iff_nil. rewrite skipn_length, Z. lia. }
  destruct C as [C|(pad & Wp & C & Z)].
  - pose proof C as C0. destruct C as [_ L]. fold (hsize bs) in L.
    destruct (B (mgmt_body bs) e) as (more & Wm & Q).
    + apply wf_skipn; exact Wb.
    + destruct (mgmt_header_done t bs e Wb C0 E); auto.
    + assert (H1 : byte (bs ++ more) 1 = byte bs 1) by (unfold byte; apply app_nth1; unfold hsize in L; destruct (N.testbit _ _); lia).
      apply (K more Wm).
      * destruct C0 as [T' _]. split; [rewrite type_app; [exact T'|intros ->; unfold hsize in L; cbn in L; lia]|]. rewrite H1, app_length. fold (hsize bs). lia.
      * unfold mgmt_body in *. rewrite H1. fold (hsize bs) in *. rewrite skipn_more by exact L. exact Q.
  - destruct (B [] e) as (more & Wm & Q); [constructor|auto|]. cbn [app] in Q.
    pose proof C as [T' L]. set (m := bs ++ pad) in *. fold (hsize m) in L.
    assert (H1 : byte (m ++ more) 1 = byte m 1) by (unfold byte; apply app_nth1; unfold hsize in L; destruct (N.testbit _ _); lia).
    apply (K (pad ++ more)); [apply wf_bytes_app; auto| |].
    + rewrite app_assoc. fold m. split; [rewrite type_app; [exact T'|intros X; rewrite X in L; unfold hsize in L; cbn in L; lia]|]. rewrite H1, app_length. fold (hsize m). lia.
    + rewrite app_assoc. fold m. unfold mgmt_body in *. rewrite H1. fold (hsize m) in *. rewrite skipn_more by exact L. rewrite Z. exact Q.
Qed.
Lemma mgmt_other {W R} (t : BodyType W R) P bs : Accepted t P -> wf_bytes bs -> ~ type_fits 0 bs -> Final (rd_mgmt t false) bs.
Proof.
  intros A Wb N more [x n] Wm E. apply N. destruct (proj1 (A false (bs ++ more) (proj2 (wf_bytes_app _ _) (conj Wb Wm)))) as (m & Q & [T _] & _); [eauto|].
  cbn [enc_frame] in Q. subst m. destruct bs as [|b bs]; [left; reflexivity|]. right. now rewrite type_app in T by discriminate.
Qed.
End Facts.
