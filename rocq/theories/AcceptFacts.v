(** Proofs about which management frames are accepted. *)
From Verif Require Import Base BaseFacts SpecBase Bits Layouts BitsFacts Enums EnumsFacts Common CommonFacts SpecCommon Crc CrcFacts Elements ElementsFacts
  Mgmt SpecMgmt MgmtFacts MgmtFacts2 MgmtFacts3 SpecGeneric GenericFacts ElementTypesFacts Data SpecData DataFacts DataFacts2 SpecAccept.

Section Facts.
Context {cfg : Cfg}.

(** ** single reads *)
Lemma end_bad_lt off len : off < len -> end_bad off len = false.
Proof. unfold end_bad. destruct strict_end; intros; [apply Nat.leb_gt|apply Nat.ltb_ge]; lia. Qed.
Lemma end_bad_false off len : end_bad off len = false -> off <= len.
Proof. unfold end_bad. destruct strict_end; intros H; [apply Nat.leb_gt in H|apply Nat.ltb_ge in H]; lia. Qed.
Lemma end_bad_ok off (from : bytes) : end_bad off (length from) = false <-> off <= length from /\ end_ok (skipn off from).
Proof.
  unfold end_bad, end_ok. destruct strict_end.
  - rewrite Nat.leb_gt. split.
    + intros H. split; [lia|]. right. intros Z. apply (f_equal (@length N)) in Z. rewrite skipn_length in Z. cbn in Z. lia.
    + intros [H [K|K]]; [discriminate|]. destruct (Nat.eq_dec off (length from)) as [->|]; [|lia].
      now rewrite skipn_all in K.
  - rewrite Nat.ltb_ge. intuition.
Qed.
Lemma gread_le_ok k from off : off + k <= length from -> 0 < k ->
  gread (rd_le k) from off = Ok (le_val (firstn k (skipn off from)), off + k).
Proof.
  intros L K. unfold gread. rewrite end_bad_lt by lia. unfold rd_le. rewrite skipn_length. now rewrite (proj2 (Nat.ltb_ge _ _)) by lia.
Qed.
Lemma gread_bytes_ok k from off : off + k <= length from -> 0 < k ->
  gread (rd_bytes k) from off = Ok (firstn k (skipn off from), off + k).
Proof.
  intros L K. unfold gread. rewrite end_bad_lt by lia. unfold rd_bytes. rewrite skipn_length. now rewrite (proj2 (Nat.ltb_ge _ _)) by lia.
Qed.
Lemma gread_le_got k from off v o : gread (rd_le k) from off = Ok (v, o) ->
  off + k <= length from /\ o = off + k /\ v = le_val (firstn k (skipn off from)).
Proof.
  intros E. unfold gread in E. destruct (end_bad off (length from)) eqn:B; [discriminate|]. apply end_bad_false in B.
  unfold rd_le in E. rewrite skipn_length in E. destruct (Nat.ltb_spec (length from - off) k); [discriminate|].
  assert (v = le_val (firstn k (skipn off from)) /\ o = off + k) as [-> ->] by (split; congruence). split; [lia|auto].
Qed.
Lemma gread_elements_got from off v o : gread rd_elements from off = Ok (v, o) -> off <= length from /\ end_ok (skipn off from).
Proof.
  intros E. unfold gread in E. destruct (end_bad off (length from)) eqn:B; [discriminate|]. now apply end_bad_ok.
Qed.
Lemma gread_elements_ok from off : off <= length from -> end_ok (skipn off from) -> exists o,
  gread rd_elements from off = Ok (skipn off from, o).
Proof. intros L K. unfold gread. rewrite (proj2 (end_bad_ok off from)) by auto. unfold rd_elements. eauto. Qed.

(** ** more bytes at the end *)
Definition Ext {A} (r : reader A) : Prop := forall a more x n, r a = Ok (x, n) -> r (a ++ more) = Ok (x, n).
Lemma firstn_more {A} k (a b : list A) : k <= length a -> firstn k (a ++ b) = firstn k a.
Proof. intros L. rewrite firstn_app. replace (k - length a) with 0 by lia. cbn. apply app_nil_r. Qed.
Lemma skipn_more {A} k (a b : list A) : k <= length a -> skipn k (a ++ b) = skipn k a ++ b.
Proof. intros L. rewrite skipn_app. now replace (k - length a) with 0 by lia. Qed.
Lemma rd_le_ext k : Ext (rd_le k).
Proof.
  intros a b x n E. unfold rd_le in *. destruct (Nat.ltb_spec (length a) k) as [|L]; [discriminate|].
  rewrite app_length, (proj2 (Nat.ltb_ge _ _)) by lia. now rewrite firstn_more.
Qed.
Lemma rd_bytes_ext k : Ext (rd_bytes k).
Proof.
  intros a b x n E. unfold rd_bytes in *. destruct (Nat.ltb_spec (length a) k) as [|L]; [discriminate|].
  rewrite app_length, (proj2 (Nat.ltb_ge _ _)) by lia. now rewrite firstn_more.
Qed.
Lemma rd_u8_ext : Ext rd_u8.
Proof. intros [|c a] b x n E; [discriminate|exact E]. Qed.
Lemma end_bad_more off (a b : bytes) : end_bad off (length a) = false -> end_bad off (length (a ++ b)) = false.
Proof.
  unfold end_bad. rewrite app_length. destruct strict_end; rewrite ?Nat.leb_gt, ?Nat.ltb_ge; lia.
Qed.
Lemma gread_ext {A} (r : reader A) off a more x n : Ext r -> gread r a off = Ok (x, n) -> gread r (a ++ more) off = Ok (x, n).
Proof.
  intros X E. unfold gread in *. destruct (end_bad off (length a)) eqn:B; [discriminate|].
  rewrite (end_bad_more _ _ more B). apply end_bad_false in B. rewrite skipn_more by exact B.
  destruct (r (skipn off a)) as [[y m]| |] eqn:R; try discriminate. now rewrite (X _ more _ _ R).
Qed.
Lemma gread_ext_last {A} (r : reader A) (f : A -> bytes -> A) off a more x n :
  (forall a more x n, r a = Ok (x, n) -> exists n', r (a ++ more) = Ok (f x more, n')) ->
  gread r a off = Ok (x, n) -> exists n', gread r (a ++ more) off = Ok (f x more, n').
Proof.
  intros X E. unfold gread in *. destruct (end_bad off (length a)) eqn:B; [discriminate|].
  rewrite (end_bad_more _ _ more B). apply end_bad_false in B. rewrite skipn_more by exact B.
  destruct (r (skipn off a)) as [[y m]| |] eqn:R; try discriminate. destruct (X _ more _ _ R) as [m' ->].
  assert (y = x) as -> by congruence. eauto.
Qed.
Lemma rd_elements_ext a more x n : rd_elements a = Ok (x, n) -> exists n', rd_elements (a ++ more) = Ok (x ++ more, n').
Proof. unfold rd_elements. intros E. assert (a = x) as -> by congruence. eauto. Qed.
Lemma gread_elements_ext off a more x n : gread rd_elements a off = Ok (x, n) -> exists n', gread rd_elements (a ++ more) off = Ok (x ++ more, n').
Proof. exact (gread_ext_last rd_elements (fun x m => x ++ m) off a more x n rd_elements_ext). Qed.
Lemma slice_from_ext off a (more : bytes) x : @slice_from serr a off = Ok x -> @slice_from serr (a ++ more) off = Ok (x ++ more).
Proof.
  unfold slice_from. destruct (Nat.leb_spec off (length a)) as [L|L]; [|discriminate]. intros E.
  rewrite app_length, (proj2 (Nat.leb_le _ _)) by lia. rewrite skipn_more by exact L. congruence.
Qed.
Lemma rd_mgmt_header_ext f : Ext (rd_mgmt_header f).
Proof.
  intros a b x n E. unfold rd_mgmt_header in *.
  repeat match type of E with
  | rbind (gread ?r a ?o) _ = Ok _ => let G := fresh in destruct (gread r a o) as [[? ?]| |] eqn:G; try discriminate; cbn [rbind] in E;
      (apply (gread_ext _ _ _ b) in G; [|apply rd_le_ext || apply rd_bytes_ext || apply rd_u8_ext]); rewrite G; cbn [rbind]
  | (if ?c then _ else _) = Ok _ => destruct c
  end; exact E.
Qed.
Lemma mgmt_extends {W R} (t : BodyType W R) f :
  (forall a more x n, bt_read t a = Ok (x, n) -> exists n', bt_read t (a ++ more) = Ok (f x more, n')) -> Extends t f.
Proof.
  intros X bs more h r n E. unfold rd_mgmt in *. cbn [rbind] in *.
  destruct (gread (rd_le 2) bs 0) as [[fcf o]| |] eqn:G; try discriminate. cbn [rbind] in E.
  rewrite (gread_ext _ _ _ more _ _ (rd_le_ext 2) G). cbn [rbind].
  destruct (fcf_frame_type fcf); try discriminate.
  destruct (gread (rd_mgmt_header _) bs o) as [[h' o2]| |] eqn:G2; try discriminate. cbn [rbind] in E.
  rewrite (gread_ext _ _ _ more _ _ (rd_mgmt_header_ext _) G2). cbn [rbind].
  destruct (gread (bt_read t) bs o2) as [[r' o3]| |] eqn:G3; try discriminate. cbn [rbind] in E.
  destruct (gread_ext_last _ f _ _ more _ _ X G3) as [n' ->]. cbn [rbind].
  assert (h' = h /\ r' = r) as [-> ->] by (split; congruence). eauto.
Qed.

(** ** acceptance in general *)
Lemma wf_enc_frame fcs m : wf_bytes (enc_frame fcs m) -> wf_bytes m.
Proof. destruct fcs; cbn [enc_frame]; intros H; [now apply wf_bytes_app in H|exact H]. Qed.
Lemma mgmt_accepted {W R} (t : BodyType W R) (P : bytes -> Prop) :
  (forall body, wf_bytes body -> (exists x n, bt_read t body = Ok (x, n)) <-> P body) ->
  (forall body, P body -> end_ok body) -> Accepted t P.
Proof.
  intros A K fcs bs W0. split.
  - intros ([h r] & n & E). destruct (rd_mgmt_inv t fcs bs h r n W0 E) as (b0 & body & k & T & B & Wb & Hh & -> & G & _).
    eexists. split; [reflexivity|].
    assert (L : length (enc_mgmt_header h) = if N.testbit (mh_flags h) 7 then 26 else 22).
    { pose proof (mgmt_header_length h Hh) as L. unfold mh_length in L. destruct Hh as (_ & _ & _ & _ & _ & _ & D).
      destruct (mh_ht h); [destruct D as (-> & _)|rewrite D]; lia. }
    split.
    + split; [exact T|]. unfold byte. cbn [nth app length]. rewrite app_length, L. destruct (N.testbit (mh_flags h) 7); lia.
    + assert (Q : mgmt_body ([b0; mh_flags h] ++ enc_mgmt_header h ++ body) = body).
      { unfold mgmt_body, byte. cbn [nth app].
        replace (if N.testbit (mh_flags h) 7 then 28 else 24) with (2 + length (enc_mgmt_header h)) by (rewrite L; destruct (N.testbit _ _); reflexivity).
        cbn [skipn Nat.add]. now rewrite skipn_app, skipn_all, Nat.sub_diag. }
      rewrite Q. apply A; [exact Wb|eauto].
  - intros (m & -> & [T L] & B).
    pose proof (wf_enc_frame _ _ W0) as Wm.
    assert (L10 : 10 <= length m) by (destruct (N.testbit _ _); lia).
    destruct (gf_type m Wm L10) as [FT FF].
    unfold rd_mgmt. rewrite (strip_frame fcs m Wm). cbn [rbind].
    rewrite gread_le_ok by lia. cbn [rbind skipn]. rewrite FT, FF, T. cbn [type_of_bits].
    assert (O : order (byte m 1) = N.testbit (byte m 1) 7) by apply flag_bits.
    unfold gread at 1. rewrite end_bad_lt by lia.
    set (rest := skipn (0 + 2) m). assert (LR : length rest = length m - 2) by (unfold rest; now rewrite skipn_length).
    assert (X : exists h, rd_mgmt_header (byte m 1) rest = Ok (h, if N.testbit (byte m 1) 7 then 26 else 22)).
    { unfold rd_mgmt_header. rewrite O. destruct (N.testbit (byte m 1) 7).
      all: repeat (first [rewrite gread_le_ok by lia|rewrite gread_bytes_ok by lia]; cbn [rbind Nat.add]); eauto. }
    destruct X as [h ->]. cbn [rbind]. unfold gread.
    assert (E : 0 + 2 + (if N.testbit (byte m 1) 7 then 26 else 22) = if N.testbit (byte m 1) 7 then 28 else 24) by (destruct (N.testbit _ _); reflexivity).
    rewrite E. rewrite (proj2 (end_bad_ok _ m)) by (split; [exact L|apply K; exact B]).
    change (skipn (if N.testbit (byte m 1) 7 then 28 else 24) m) with (mgmt_body m).
    destruct (proj2 (A (mgmt_body m) (wf_skipn _ _ Wm)) B) as (x & n & ->). cbn [rbind]. eauto.
Qed.

(** ** the bodies *)
Ltac got E := repeat match type of E with
  | rbind (gread (rd_le ?k) ?a ?o) _ = Ok _ =>
      let G := fresh "G" in destruct (gread (rd_le k) a o) as [[? ?]| |] eqn:G; try discriminate; cbn [rbind] in E;
      apply gread_le_got in G as (? & -> & ->)
  | rbind (gread rd_elements ?a ?o) _ = Ok _ =>
      let G := fresh "G" in destruct (gread rd_elements a o) as [[? ?]| |] eqn:G; try discriminate; cbn [rbind] in E;
      apply gread_elements_got in G
  end.
Ltac have := repeat (first [rewrite gread_le_ok by lia]; cbn [rbind Nat.add]).
Ltac more E b := repeat match type of E with
  | rbind (gread rd_elements ?a ?o) _ = Ok _ =>
      let G := fresh "G" in let n := fresh "n" in destruct (gread rd_elements a o) as [[? ?]| |] eqn:G; try discriminate; cbn [rbind] in E;
      apply (gread_elements_ext _ _ b) in G as [? ->]; cbn [rbind]
  | rbind (gread ?r ?a ?o) _ = Ok _ => let G := fresh "G" in destruct (gread r a o) as [[? ?]| |] eqn:G; try discriminate; cbn [rbind] in E;
      (apply (gread_ext _ _ _ b) in G; [|apply rd_le_ext || apply rd_bytes_ext || apply rd_u8_ext]); rewrite G; cbn [rbind]
  | rbind (slice_from ?a ?o) _ = Ok _ => let G := fresh "G" in destruct (slice_from a o) as [?| |] eqn:G; try discriminate; cbn [rbind] in E;
      apply (slice_from_ext _ _ b) in G; rewrite G; cbn [rbind]
  | (if ?c then _ else _) = Ok _ => destruct c; try discriminate
  end.
Ltac done E := match type of E with Ok (?a, _) = Ok (?x, _) => assert (x = a) as -> by congruence; cbn; eauto end.
Lemma fixed_end_ok k body : 0 < k -> fixed_fields k body -> end_ok body.
Proof. intros K [L _]. right. intros ->. cbn in L. lia. Qed.

Lemma beacon_body_accepted body : (exists x n, rd_beacon body = Ok (x, n)) <-> fixed_fields 12 body.
Proof.
  unfold rd_beacon, fixed_fields. split.
  - intros (x & n & E). got E. cbn [Nat.add] in *. tauto.
  - intros [L K]. have. destruct (gread_elements_ok body 12 L K) as [o ->]. cbn [rbind]. eauto.
Qed.
Lemma auth_body_accepted body : (exists x n, rd_auth body = Ok (x, n)) <-> fixed_fields 6 body.
Proof.
  unfold rd_auth, fixed_fields. split.
  - intros (x & n & E). got E. cbn [Nat.add] in *. tauto.
  - intros [L K]. have. destruct (gread_elements_ok body 6 L K) as [o ->]. cbn [rbind]. eauto.
Qed.
Lemma assoc_req_body_accepted body : (exists x n, rd_assoc_req body = Ok (x, n)) <-> fixed_fields 4 body.
Proof.
  unfold rd_assoc_req, fixed_fields. split.
  - intros (x & n & E). got E. cbn [Nat.add] in *. tauto.
  - intros [L K]. have. destruct (gread_elements_ok body 4 L K) as [o ->]. cbn [rbind]. eauto.
Qed.
Lemma reason_body_accepted body : (exists x n, rd_reason body = Ok (x, n)) <-> fixed_fields 2 body.
Proof.
  unfold rd_reason, fixed_fields. split.
  - intros (x & n & E). got E. cbn [Nat.add] in *. tauto.
  - intros [L K]. have. destruct (gread_elements_ok body 2 L K) as [o ->]. cbn [rbind]. eauto.
Qed.
Lemma probe_req_body_accepted body : (exists x n, rd_probe_req body = Ok (x, n)) <-> fixed_fields 0 body.
Proof.
  unfold rd_probe_req, fixed_fields. split.
  - intros (x & n & E). got E. tauto.
  - intros [L K]. destruct (gread_elements_ok body 0 L K) as [o ->]. cbn [rbind]. eauto.
Qed.
Lemma aid_checked_iff v : (exists a, aid_new_checked v = Some a) <-> accepted_aid v.
Proof.
  rewrite aid_checked_cases. unfold accepted_aid. destruct (N.leb_spec 1 (v mod 16384)), (N.leb_spec (v mod 16384) 2007); cbn [andb].
  all: split; [intros [a E]|intros H1]; try discriminate; try lia; eauto.
Qed.
Lemma assoc_resp_body_accepted body : (exists x n, rd_assoc_resp body = Ok (x, n)) <->
  fixed_fields 6 body /\ (aid_field body = 0%N \/ accepted_aid (aid_field body)).
Proof.
  unfold rd_assoc_resp, fixed_fields. split.
  - intros (x & n & E). got E. cbn [Nat.add] in *. change (le_val (firstn 2 (skipn 4 body))) with (aid_field body) in E.
    destruct (N.eqb_spec (aid_field body) 0) as [Z|Z]; cbn [rbind] in E.
    + got E. tauto.
    + destruct (aid_new_checked (aid_field body)) as [a|] eqn:C; [|discriminate]. cbn [rbind] in E. got E.
      split; [tauto|]. right. apply aid_checked_iff. eauto.
  - intros [[L K] A]. have. change (le_val (firstn 2 (skipn 4 body))) with (aid_field body).
    destruct (gread_elements_ok body 6 L K) as [o G].
    destruct (N.eqb_spec (aid_field body) 0) as [Z|Z]; cbn [rbind].
    + rewrite G. cbn [rbind]. eauto.
    + destruct A as [A|A]; [contradiction|]. apply aid_checked_iff in A as [a ->]. cbn [rbind]. rewrite G. cbn [rbind]. eauto.
Qed.
Lemma raw_action_body_accepted body : (exists x n, rd_raw_action body = Ok (x, n)) <-> 1 <= length body.
Proof.
  split.
  - intros (x & n & E). destruct body; [|cbn; lia]. unfold rd_raw_action, gread in E. destruct (end_bad _ _); discriminate.
  - destruct body as [|b rest]; cbn [length]; [lia|]. intros _. rewrite rd_raw_action_cons. eauto.
Qed.
Lemma vendor_body_accepted body : wf_bytes body ->
  (exists x n, rd_vendor_action body = Ok (x, n)) <-> 4 <= length body /\ byte body 0 = 127%N.
Proof.
  intros W. unfold rd_vendor_action. destruct body as [|b rest].
  { split; [|cbn; lia]. intros (x & n & E). unfold gread in E. destruct (end_bad _ _); discriminate. }
  rewrite gread_u8_cons. cbn [rbind]. unfold byte. cbn [nth].
  rewrite (category_is b Cat_VendorSpecific eq_refl). change (category_into_bits Cat_VendorSpecific) with 127%N.
  destruct (N.eqb_spec b 127) as [Y|Y]; cbn [negb].
  - split.
    + intros (x & n & E). destruct (gread (rd_bytes 3) (b :: rest) 1) as [[o k]| |] eqn:G; try discriminate.
      split; [|tauto]. apply gread_inv in G as (_ & m & G & _). unfold rd_bytes in G. cbn [skipn] in G.
      destruct (Nat.ltb_spec (length rest) 3); [discriminate|]. cbn [length]. lia.
    + intros [L _]. rewrite gread_bytes_ok by lia. cbn [rbind]. unfold slice_from.
      rewrite (proj2 (Nat.leb_le _ _)) by lia. cbn [rbind]. eauto.
  - split; [intros (x & n & E); discriminate|tauto].
Qed.
Lemma sp_body code body : self_prot_from_bits (self_prot_into_bits code) = code -> 2 <= length body ->
  self_protected (self_prot_into_bits code) body -> rd_self_protected_header code body = Ok 2.
Proof.
  intros C L [A B]. destruct body as [|a [|b rest]]; cbn [length] in L; try lia. unfold byte in A, B. cbn [nth] in A, B. subst. now apply sp_header.
Qed.
Lemma sp_body_inv code body o : self_prot_from_bits (self_prot_into_bits code) = code ->
  rd_self_protected_header code body = Ok o -> o = 2 /\ self_protected (self_prot_into_bits code) body /\ 2 <= length body.
Proof. intros C E. apply sp_header_inv in E as (-> & rest & ->); [|exact C]. split; [reflexivity|]. split; [split; reflexivity|]. cbn. lia. Qed.
Lemma open_body_accepted body : (exists x n, rd_mesh_open body = Ok (x, n)) <-> fixed_fields 4 body /\ self_protected 1 body.
Proof.
  unfold rd_mesh_open, fixed_fields. split.
  - intros (x & n & E). destruct (rd_self_protected_header _ body) as [o| |] eqn:H; try discriminate. cbn [rbind] in E.
    apply sp_body_inv in H as (-> & H & _); [|reflexivity]. got E. cbn [Nat.add] in *. tauto.
  - intros [[L K] H]. rewrite sp_body by (reflexivity || lia || exact H). cbn [rbind]. have.
    destruct (gread_elements_ok body 4 L K) as [o ->]. cbn [rbind]. eauto.
Qed.
Lemma confirm_body_accepted body : (exists x n, rd_mesh_confirm body = Ok (x, n)) <->
  fixed_fields 6 body /\ self_protected 2 body /\ accepted_aid (aid_field body).
Proof.
  unfold rd_mesh_confirm, fixed_fields. split.
  - intros (x & n & E). destruct (rd_self_protected_header _ body) as [o| |] eqn:H; try discriminate. cbn [rbind] in E.
    apply sp_body_inv in H as (-> & H & _); [|reflexivity]. got E. cbn [Nat.add] in *.
    change (le_val (firstn 2 (skipn 4 body))) with (aid_field body) in E.
    destruct (aid_new_checked (aid_field body)) as [a|] eqn:C; [|discriminate]. got E.
    split; [tauto|]. split; [exact H|]. apply aid_checked_iff. eauto.
  - intros ([L K] & H & A). rewrite sp_body by (reflexivity || lia || exact H). cbn [rbind]. have.
    change (le_val (firstn 2 (skipn 4 body))) with (aid_field body). apply aid_checked_iff in A as [a ->].
    destruct (gread_elements_ok body 6 L K) as [o ->]. cbn [rbind]. eauto.
Qed.
Lemma close_body_accepted body : (exists x n, rd_mesh_close body = Ok (x, n)) <-> fixed_fields 2 body /\ self_protected 3 body.
Proof.
  unfold rd_mesh_close, fixed_fields. split.
  - intros (x & n & E). destruct (rd_self_protected_header _ body) as [o| |] eqn:H; try discriminate. cbn [rbind] in E.
    apply sp_body_inv in H as (-> & H & _); [|reflexivity]. got E. tauto.
  - intros [[L K] H]. rewrite sp_body by (reflexivity || lia || exact H). cbn [rbind].
    destruct (gread_elements_ok body 2 L K) as [o ->]. cbn [rbind]. eauto.
Qed.

Lemma accepted_elements : Accepted Beacon (fixed_fields 12) /\ Accepted ProbeResponse (fixed_fields 12) /\ Accepted Authentication (fixed_fields 6) /\
  Accepted AssociationRequest (fixed_fields 4) /\
  Accepted AssociationResponse (fun body => fixed_fields 6 body /\ (aid_field body = 0%N \/ accepted_aid (aid_field body))) /\
  Accepted Deauthentication (fixed_fields 2) /\ Accepted Disassociation (fixed_fields 2) /\ Accepted ProbeRequest (fixed_fields 0).
Proof.
  pose proof (fixed_end_ok 12). pose proof (fixed_end_ok 6). pose proof (fixed_end_ok 4). pose proof (fixed_end_ok 2).
  split; [|split; [|split; [|split; [|split; [|split; [|split]]]]]]; apply mgmt_accepted.
  1, 3: intros body _; apply beacon_body_accepted.
  3: intros body _; apply auth_body_accepted.
  4: intros body _; apply assoc_req_body_accepted.
  5: intros body _; apply assoc_resp_body_accepted.
  6, 8: intros body _; apply reason_body_accepted.
  8: intros body _; apply probe_req_body_accepted.
  1-4: intros body; apply fixed_end_ok; lia.
  1: intros body [X _]; revert X; apply fixed_end_ok; lia.
  1-2: intros body; apply fixed_end_ok; lia.
  intros body [_ K]. exact K.
Qed.
Lemma accepted_actions : Accepted RawAction (fun body => 1 <= length body) /\
  Accepted RawVendorSpecificAction (fun body => 4 <= length body /\ byte body 0 = 127%N) /\
  Accepted MeshPeeringOpen (fun body => fixed_fields 4 body /\ self_protected 1 body) /\
  Accepted MeshPeeringConfirm (fun body => fixed_fields 6 body /\ self_protected 2 body /\ accepted_aid (aid_field body)) /\
  Accepted MeshPeeringClose (fun body => fixed_fields 2 body /\ self_protected 3 body).
Proof.
  assert (NE : forall (body : bytes) k, k <= length body -> 0 < k -> end_ok body).
  { intros [|] k L K; [cbn in L; lia|]. right. discriminate. }
  split; [|split; [|split; [|split]]]; apply mgmt_accepted.
  - intros body _. apply raw_action_body_accepted.
  - intros body L. apply (NE body 1); [exact L|lia].
  - apply vendor_body_accepted.
  - intros body [L _]. apply (NE body 4); [exact L|lia].
  - intros body _. apply open_body_accepted.
  - intros body [[L _] _]. apply (NE body 4); [exact L|lia].
  - intros body _. apply confirm_body_accepted.
  - intros body [[L _] _]. apply (NE body 6); [exact L|lia].
  - intros body _. apply close_body_accepted.
  - intros body [[L _] _]. apply (NE body 2); [exact L|lia].
Qed.

Lemma sp_header_ext code a more o : rd_self_protected_header code a = Ok o -> rd_self_protected_header code (a ++ more) = Ok o.
Proof. intros E. unfold rd_self_protected_header in *. more E more. exact E. Qed.
Ltac ext := apply mgmt_extends; cbn [bt_read]; intros a b x n E.
Lemma extends_elements :
  Extends Beacon (fun r more => with_beacon r (bb_elements r ++ more)) /\
  Extends ProbeResponse (fun r more => with_beacon r (bb_elements r ++ more)) /\
  Extends Authentication (fun r more => with_auth r (au_elements r ++ more)) /\
  Extends AssociationRequest (fun r more => with_assoc_req r (aq_elements r ++ more)) /\
  Extends AssociationResponse (fun r more => with_assoc_resp r (ar_elements r ++ more)) /\
  Extends Deauthentication (fun r more => with_reason r (rb_elements r ++ more)) /\
  Extends Disassociation (fun r more => with_reason r (rb_elements r ++ more)) /\
  Extends ProbeRequest (fun r more => with_probe r (pq_elements r ++ more)).
Proof.
  split; [|split; [|split; [|split; [|split; [|split; [|split]]]]]]; ext.
  all: unfold Beacon, ProbeResponse, Deauthentication, Disassociation, Mgmt.beacon_like, reason_body, Authentication, AssociationRequest, AssociationResponse, ProbeRequest in *; cbn [bt_read] in *.
  all: unfold rd_beacon, rd_auth, rd_assoc_req, rd_assoc_resp, rd_reason, rd_probe_req in *; more E b; try done E.
  match type of E with rbind ?c _ = _ => destruct c as [aid| |] end; try discriminate. cbn [rbind] in *. more E b. done E.
Qed.
Lemma extends_actions :
  Extends RawAction (fun r more => mkRA (ra_category r) (ra_payload r ++ more)) /\
  Extends RawVendorSpecificAction (fun r more => with_vendor r (va_payload r ++ more)) /\
  Extends MeshPeeringOpen (fun r more => with_open r (mo_elements r ++ more)) /\
  Extends MeshPeeringConfirm (fun r more => with_confirm r (mc_elements r ++ more)) /\
  Extends MeshPeeringClose (fun r more => with_close r (ml_elements r ++ more)).
Proof.
  split; [|split; [|split; [|split]]]; ext.
  all: unfold RawAction, RawVendorSpecificAction, MeshPeeringOpen, MeshPeeringConfirm, MeshPeeringClose in *; cbn [bt_read] in *.
  all: unfold rd_raw_action, rd_vendor_action, rd_mesh_open, rd_mesh_confirm, rd_mesh_close in *.
  3-5: match type of E with rbind (rd_self_protected_header ?c ?a) _ = _ => destruct (rd_self_protected_header c a) as [?| |] eqn:H; try discriminate end;
    rewrite (sp_header_ext _ _ b _ H); cbn [rbind] in *.
  all: more E b; try done E.
  destruct (aid_new_checked _); [|discriminate]. more E b. done E.
Qed.

(** ** elements *)
Lemma rd_raw_tlv_ext : Ext rd_raw_tlv.
Proof. intros a b x n E. unfold rd_raw_tlv in *. more E b. exact E. Qed.
Lemma iter_collect_ext {A} (r : reader A) : Ext r -> forall f f' a (more : bytes) xs ys, iter_collect f r (Some a) = Ok xs ->
  iter_collect f' r (Some (a ++ more)) = Ok ys -> exists zs, ys = xs ++ zs.
Proof.
  intros X. induction f as [|f IH]; intros f' a more xs ys E F; [discriminate|]. destruct f' as [|f']; [discriminate|].
  cbn [iter_collect iter_next] in E, F.
  destruct (r a) as [[x n]| |] eqn:R.
  - rewrite (X _ more _ _ R) in F.
    destruct (slice_from a n) as [rest| |] eqn:S; try discriminate. rewrite (slice_from_ext _ _ more _ S) in F. cbn [rbind] in *.
    destruct (iter_collect f r (Some rest)) as [xs'| |] eqn:E'; try discriminate. cbn [rbind] in E.
    match type of F with rbind ?c _ = _ => destruct c as [ys'| |] eqn:F'; try discriminate end. cbn [rbind] in F.
    destruct (IH _ _ _ _ _ E' F') as [zs ->]. injection E as <-. injection F as <-.
    exists zs. reflexivity.
  - cbn [rbind] in E. assert (xs = []) as -> by congruence. exists ys. reflexivity.
  - discriminate.
Qed.
Lemma raw_elements_ext a more : exists xs zs, raw_elements a = Ok xs /\ raw_elements (a ++ more) = Ok (xs ++ zs).
Proof.
  destruct (raw_elements_spec a) as (xs & _ & E & _). destruct (raw_elements_spec (a ++ more)) as (ys & _ & F & _).
  destruct (iter_collect_ext rd_raw_tlv rd_raw_tlv_ext _ _ a more xs ys E F) as [zs ->]. eauto.
Qed.
Lemma find_map_ext {A B} (f : A -> Res serr (option B)) l l' v : find_map_res f l = Ok (Some v) -> find_map_res f (l ++ l') = Ok (Some v).
Proof.
  induction l as [|x l IH]; cbn; [discriminate|]. destruct (f x) as [[b|]| |]; cbn; auto; discriminate.
Qed.
Lemma filter_map_ext {A B} (f : A -> Res serr (option B)) l l' v : filter_map_res f (l ++ l') = Ok v -> exists a b, filter_map_res f l = Ok a /\ v = a ++ b.
Proof.
  revert v. induction l as [|x l IH]; cbn; intros v E; [exists [], v; auto|].
  destruct (f x) as [o| |]; try discriminate. cbn [rbind] in *.
  destruct (filter_map_res f (l ++ l')) as [w| |]; try discriminate. cbn [rbind] in E. destruct (IH w eq_refl) as (a & b & -> & ->). cbn [rbind].
  destruct o as [o|]; [exists (o :: a), b|exists a, b]; split; auto; cbn; congruence.
Qed.
Lemma first_element_ext {W R} (t : ElementType W R) a more v : get_first_element t a = Ok (Some v) -> get_first_element t (a ++ more) = Ok (Some v).
Proof.
  destruct (raw_elements_ext a more) as (xs & zs & E & F). unfold get_first_element. rewrite E, F. cbn [rbind]. apply find_map_ext.
Qed.
Lemma matching_elements_ext {W R} (t : ElementType W R) a more l : get_matching_elements t (a ++ more) = Ok l -> exists l1 l2,
  get_matching_elements t a = Ok l1 /\ l = l1 ++ l2.
Proof.
  destruct (raw_elements_ext a more) as (xs & zs & E & F). unfold get_matching_elements. rewrite E, F. cbn [rbind]. apply filter_map_ext.
Qed.
Lemma ssid_ext (b : BeaconLikeBody bytes) more s : beacon_ssid b = Ok (Some s) -> beacon_ssid (with_beacon b (bb_elements b ++ more)) = Ok (Some s).
Proof. apply first_element_ext. Qed.

(** ** data frames *)
Lemma app_eq_len (a b c d : bytes) : a ++ b = c ++ d -> length a = length c -> a = c /\ b = d.
Proof.
  revert c. induction a as [|x a IH]; intros [|y c] E L; try discriminate; [auto|]. cbn in E. injection E as <- E. injection L as L.
  destruct (IH c E L) as [-> ->]. auto.
Qed.
Lemma data_size_min b0 b1 : 24 <= data_header_size b0 b1.
Proof. unfold data_header_size. lia. Qed.
Lemma data_accepted_plain m : wf_bytes m -> (exists x n, rd_data false m = Ok (x, n)) <-> complete_data m.
Proof.
  intros W. unfold rd_data, complete_data. cbn [rbind]. split.
  - intros (x & n & E). destruct (gread rd_data_header m 0) as [[h o]| |] eqn:G; try discriminate.
    apply gread_inv in G as (_ & k & G & _). cbn [skipn] in G.
    destruct m as [|b0 [|b1 rest]].
    1-2: destruct (data_header_refuse _ W) as [e X]; [discriminate|congruence].
    unfold frame_type_bits, byte. cbn [nth].
    destruct (N.eq_dec ((b0 / 4) mod 4) 2) as [T|T].
    + split; [exact T|]. destruct (Nat.le_gt_cases (data_header_size b0 b1) (length (b0 :: b1 :: rest))) as [L|L]; [exact L|].
      destruct (data_header_refuse _ W) as [e X]; [|congruence]. intros c0 c1 r Q. injection Q as <- <- _. now right.
    + destruct (data_header_refuse _ W) as [e X]; [|congruence]. intros c0 c1 r Q. injection Q as <- <- _. now left.
  - intros [T L]. pose proof (data_size_min (byte m 0) (byte m 1)).
    destruct m as [|b0 [|b1 rest]]; try (cbn [length] in L; lia). unfold frame_type_bits, byte in *. cbn [nth] in *.
    destruct (data_header_accept b0 b1 rest W T L) as (h & tail & _ & _ & _ & -> & _ & K & E).
    unfold gread. rewrite end_bad_lt by (cbn [length]; lia). cbn [skipn]. rewrite E. cbn [rbind].
    destruct (data_has_payload (dh_subtype h)); [|eauto]. unfold slice_from. rewrite (proj2 (Nat.leb_le _ _)); [cbn [rbind]; eauto|].
    cbn [length]. rewrite app_length. lia.
Qed.
Lemma data_accepted fcs bs : wf_bytes bs -> (exists x n, rd_data fcs bs = Ok (x, n)) <-> exists m, bs = enc_frame fcs m /\ complete_data m.
Proof.
  intros W. destruct fcs; cbn [enc_frame].
  - rewrite rd_data_fcs. destruct (strip_and_validate_fcs bs) as [m| |] eqn:S; cbn [rbind].
    + apply (proj1 (strip_fcs_spec bs W)) in S. subst bs. pose proof (proj1 (proj1 (wf_bytes_app _ _) W)) as Wm.
      rewrite (data_accepted_plain m Wm). split; [eauto|]. intros (m' & Q & C).
      assert (m = m') as ->; [|exact C]. apply app_eq_len in Q; [tauto|].
      apply (f_equal (@length N)) in Q. rewrite !app_length, !le_bytes_length in Q. lia.
    + split; [intros (x & n & E); discriminate|]. intros (m & -> & _).
      assert (X : strip_and_validate_fcs (m ++ le_bytes 4 (crc32 m)) = Ok m) by now apply (proj1 (strip_fcs_spec _ W)). congruence.
    + split; [intros (x & n & E); discriminate|]. intros (m & -> & _).
      assert (X : strip_and_validate_fcs (m ++ le_bytes 4 (crc32 m)) = Ok m) by now apply (proj1 (strip_fcs_spec _ W)). congruence.
  - rewrite (data_accepted_plain bs W). split; [eauto|]. intros (m & -> & C). exact C.
Qed.
Lemma rd_ne_ext k : Ext (rd_ne k).
Proof.
  unfold rd_ne. destruct native_le; [apply rd_le_ext|]. intros a b x n E. unfold rd_be in *.
  destruct (Nat.ltb_spec (length a) k) as [|L]; [discriminate|]. rewrite app_length, (proj2 (Nat.ltb_ge _ _)) by lia. now rewrite firstn_more.
Qed.
Lemma rd_opt_ext c k a b off x n : rd_opt c k a off = Ok (x, n) -> rd_opt c k (a ++ b) off = Ok (x, n).
Proof. unfold rd_opt. destruct c; intros E; [|exact E]. more E b. exact E. Qed.
Lemma rd_data_header_ext : Ext rd_data_header.
Proof.
  intros a b x n E. unfold rd_data_header in *. 
  destruct (gread (rd_le 2) a 0) as [[fcf o]| |] eqn:G0; try discriminate. rewrite (gread_ext _ _ _ b _ _ (rd_le_ext 2) G0). cbn [rbind] in *.
  destruct (fcf_frame_type fcf); try discriminate.
  repeat match type of E with
  | rbind (gread ?r a ?o) _ = Ok _ => let G := fresh in destruct (gread r a o) as [[? ?]| |] eqn:G; try discriminate; cbn [rbind] in E;
      (apply (gread_ext _ _ _ b) in G; [|apply rd_ne_ext || apply rd_bytes_ext]); rewrite G; cbn [rbind]
  | rbind (rd_opt ?c ?k a ?o) _ = Ok _ => let G := fresh in destruct (rd_opt c k a o) as [[? ?]| |] eqn:G; try discriminate; cbn [rbind] in E;
      apply (rd_opt_ext _ _ _ b) in G; rewrite G; cbn [rbind]
  end. exact E.
Qed.
Lemma data_extends (bs more : bytes) h p n : rd_data false bs = Ok ((h, p), n) ->
  rd_data false (bs ++ more) = Ok ((h, option_map (fun q => q ++ more) p), n).
Proof.
  intros E. unfold rd_data in *. cbn [rbind] in *.
  destruct (gread rd_data_header bs 0) as [[h' o]| |] eqn:G; try discriminate. rewrite (gread_ext _ _ _ more _ _ rd_data_header_ext G). cbn [rbind] in *.
  destruct (data_has_payload (dh_subtype h')).
  - destruct (slice_from bs o) as [q| |] eqn:S; try discriminate. rewrite (slice_from_ext _ _ more _ S). cbn [rbind] in *.
    assert (h' = h /\ p = Some q /\ n = o) as (-> & -> & ->) by (repeat split; congruence). reflexivity.
  - assert (h' = h /\ p = None /\ n = o) as (-> & -> & ->) by (repeat split; congruence). reflexivity.
Qed.
End Facts.
