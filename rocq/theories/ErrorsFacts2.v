(** Proofs about what the kind of a reading error tells: management frames, data frames and the other readers. *)
From Verif Require Import Base BaseFacts SpecBase Bits Layouts BitsFacts Enums EnumsFacts Common CommonFacts SpecCommon Crc CrcFacts Elements ElementsFacts
  Mgmt SpecMgmt MgmtFacts MgmtFacts2 MgmtFacts3 SpecGeneric GenericFacts ElementTypesFacts Data SpecData DataFacts DataFacts2 Control Amsdu CryptoHeader Eapol
  SpecAccept AcceptFacts SpecErrors ErrorsFacts.

Section Facts.
Context {cfg : Cfg}.
Lemma zeros_length n : length (zeros n) = n.
Proof. apply repeat_length. Qed.
Lemma zeros_fixed k body : fixed_fields k (body ++ zeros (S k)).
Proof.
  unfold fixed_fields. rewrite app_length, zeros_length. split; [lia|]. right. intros Z. apply (f_equal (@length N)) in Z.
  rewrite skipn_length, app_length, zeros_length in Z. cbn in Z. lia.
Qed.
Lemma tells_fixed {R} (r : reader R) k : BodyTells r (fixed_fields k).
Proof. intros body e _ _. exists (zeros (S k)). split; [apply wf_zeros|apply zeros_fixed]. Qed.
Lemma fixed_len k a : k < length a -> fixed_fields k a.
Proof. intros H. split; [lia|]. right. intros Z. apply (f_equal (@length N)) in Z. rewrite skipn_length in Z. cbn in Z. lia. Qed.
Lemma aid_small v : (v < 256)%N -> v = 0%N \/ accepted_aid v.
Proof. intros H. destruct (N.eq_dec v 0); [auto|]. right. unfold accepted_aid. rewrite N.mod_small by lia. lia. Qed.
Lemma le2 a b : le_val [a; b] = (a + 256 * b)%N.
Proof. unfold le_val. cbn [fold_right]. lia. Qed.
Lemma tells_assoc_resp : BodyTells rd_assoc_resp (fun body => fixed_fields 6 body /\ (aid_field body = 0%N \/ accepted_aid (aid_field body))).
Proof.
  intros body e Wb H. exists (zeros 7). split; [apply wf_zeros|]. split; [apply zeros_fixed|].
  destruct (Nat.le_gt_cases 6 (length body)) as [L|L].
  - assert (Q : aid_field (body ++ zeros 7) = aid_field body).
    { unfold aid_field. rewrite skipn_more by lia. apply f_equal, firstn_more. rewrite skipn_length. lia. }
    rewrite Q. destruct H as [->|[E NB]]; [cbn in L; lia|]. unfold rd_assoc_resp in E.
    rewrite gread_le_ok in E by lia. cbn [rbind Nat.add] in E. rewrite gread_le_ok in E by lia. cbn [rbind Nat.add] in E.
    rewrite gread_le_ok in E by lia. cbn [rbind Nat.add] in E. change (le_val (firstn 2 (skipn 4 body))) with (aid_field body) in E.
    destruct (N.eqb_spec (aid_field body) 0) as [Z|Z]; [auto|]. right. apply aid_checked_iff.
    destruct (aid_new_checked (aid_field body)) as [a|]; [eauto|]. cbn [rbind] in E. congruence.
  - assert (Q : (aid_field (body ++ zeros 7) < 256)%N); [|now apply aid_small].
    unfold aid_field. destruct body as [|b0 [|b1 [|b2 [|b3 [|b4 [|b5 body]]]]]].
    1-5: cbn - [N.mul N.add le_val]; rewrite le2; lia.
    2: cbn in L; lia.
    repeat (apply Forall_cons_iff in Wb as [? Wb]). cbn - [N.mul N.add le_val]. rewrite le2. lia.
Qed.
Lemma tells_raw_action : BodyTells rd_raw_action (fun body => 1 <= length body).
Proof. intros body e _ _. exists (zeros 1). split; [apply wf_zeros|]. rewrite app_length, zeros_length. lia. Qed.
Lemma gu8 b rest : gread rd_u8 (b :: rest) 0 = Ok (b, 1).
Proof. apply gread_u8_cons. Qed.
Lemma tells_vendor : BodyTells rd_vendor_action (fun body => 4 <= length body /\ byte body 0 = 127%N).
Proof.
  intros body e Wb H. destruct body as [|b rest].
  - exists [127; 0; 0; 0]%N. split; [now apply wf_bytesb_spec|]. split; [cbn; lia|reflexivity].
  - exists (zeros 4). split; [apply wf_zeros|]. split; [rewrite app_length, zeros_length; lia|].
    destruct H as [|[E NB]]; [discriminate|]. unfold rd_vendor_action in E. rewrite gu8 in E. cbn [rbind] in E.
    rewrite (category_is b Cat_VendorSpecific eq_refl) in E. change (category_into_bits Cat_VendorSpecific) with 127%N in E.
    unfold byte. cbn [app nth]. destruct (N.eqb_spec b 127); [assumption|]. cbn [negb] in E. congruence.
Qed.
(** the header of the mesh peering bodies: what is there fits *)
Lemma sp_cut code body e : self_prot_from_bits (self_prot_into_bits code) = code -> rd_self_protected_header code body = Err e -> e <> BadInput ->
  body = [] \/ body = [15]%N.
Proof.
  intros C E NB. unfold rd_self_protected_header in E. destruct body as [|a rest]; [auto|]. right. rewrite gu8 in E. cbn [rbind] in E.
  rewrite (category_is a Cat_SelfProtected eq_refl) in E. change (category_into_bits Cat_SelfProtected) with 15%N in E.
  destruct (N.eqb_spec a 15) as [->|]; cbn [negb] in E; [|congruence]. destruct rest as [|b rest]; [reflexivity|]. exfalso.
  unfold gread in E. rewrite end_bad_lt in E by (cbn [length]; lia). cbn [skipn rd_u8 rbind] in E.
  destruct (negb _); congruence.
Qed.
Ltac sp_cases E body := match type of E with rbind (rd_self_protected_header ?c body) _ = Err _ =>
  let G := fresh "G" in destruct (rd_self_protected_header c body) as [o|e0|] eqn:G; cbn [rbind] in E; try discriminate;
  [apply sp_header_inv in G as (-> & rest & ->); [right|reflexivity]|injection E as ->; left; apply (sp_cut c body _ eq_refl G); assumption] end.
Lemma tells_open : BodyTells rd_mesh_open (fun body => fixed_fields 4 body /\ self_protected 1 body).
Proof.
  intros body e Wb H.
  assert (Q : (body = [] \/ body = [15]%N) \/ exists rest, body = (15 :: 1 :: rest)%N).
  { destruct H as [->|[E NB]]; [auto|]. unfold rd_mesh_open in E. sp_cases E body. eauto. }
  destruct Q as [[->| ->]|(rest & ->)].
  - exists [15; 1; 0; 0; 0]%N. split; [now apply wf_bytesb_spec|]. split; [apply fixed_len; cbn; lia|split; reflexivity].
  - exists [1; 0; 0; 0]%N. split; [now apply wf_bytesb_spec|]. split; [apply fixed_len; cbn; lia|split; reflexivity].
  - exists (zeros 5). split; [apply wf_zeros|]. split; [apply zeros_fixed|split; reflexivity].
Qed.
Lemma tells_close : BodyTells rd_mesh_close (fun body => fixed_fields 2 body /\ self_protected 3 body).
Proof.
  intros body e Wb H.
  assert (Q : (body = [] \/ body = [15]%N) \/ exists rest, body = (15 :: 3 :: rest)%N).
  { destruct H as [->|[E NB]]; [auto|]. unfold rd_mesh_close in E. sp_cases E body. eauto. }
  destruct Q as [[->| ->]|(rest & ->)].
  - exists [15; 3; 0]%N. split; [now apply wf_bytesb_spec|]. split; [apply fixed_len; cbn; lia|split; reflexivity].
  - exists [3; 0]%N. split; [now apply wf_bytesb_spec|]. split; [apply fixed_len; cbn; lia|split; reflexivity].
  - exists (zeros 3). split; [apply wf_zeros|]. split; [apply zeros_fixed|split; reflexivity].
Qed.
Lemma aid_256 a : (a < 256)%N -> accepted_aid (a + 256 * 1).
Proof. intros H. unfold accepted_aid. rewrite N.mod_small by lia. lia. Qed.
Lemma tells_confirm : BodyTells rd_mesh_confirm (fun body => fixed_fields 6 body /\ self_protected 2 body /\ accepted_aid (aid_field body)).
Proof.
  intros body e Wb H.
  assert (Q : (body = [] \/ body = [15]%N) \/ exists rest, body = (15 :: 2 :: rest)%N /\ (4 <= length rest -> accepted_aid (aid_field body))).
  { destruct H as [->|[E NB]]; [auto|]. unfold rd_mesh_confirm in E. sp_cases E body. exists rest. split; [reflexivity|].
    intros L. assert (L2 : 6 <= length (15 :: self_prot_into_bits Sp_MeshPeeringConfirm :: rest)%N) by (cbn [length]; lia).
    rewrite gread_le_ok in E by lia. cbn [rbind Nat.add] in E. rewrite gread_le_ok in E by lia. cbn [rbind Nat.add] in E.
    apply aid_checked_iff. unfold aid_field.
    match type of E with match aid_new_checked ?v with _ => _ end = _ =>
      change (le_val (firstn 2 (skipn 4 (15%N :: 2%N :: rest)))) with v; destruct (aid_new_checked v) as [a|]; [eauto|congruence] end. }
  destruct Q as [[->| ->]|(rest & -> & A)].
  - exists [15; 2; 0; 0; 0; 1; 0]%N. split; [now apply wf_bytesb_spec|]. split; [apply fixed_len; cbn; lia|split; [split; reflexivity|]]. apply (aid_256 0). lia.
  - exists [2; 0; 0; 0; 1; 0]%N. split; [now apply wf_bytesb_spec|]. split; [apply fixed_len; cbn; lia|split; [split; reflexivity|]]. apply (aid_256 0). lia.
  - repeat (apply Forall_cons_iff in Wb as [_ Wb]). destruct rest as [|b2 [|b3 [|b4 [|b5 rest]]]].
    + exists [0; 0; 0; 1; 0]%N. split; [now apply wf_bytesb_spec|]. split; [apply fixed_len; cbn; lia|split; [split; reflexivity|]]. apply (aid_256 0). lia.
    + exists [0; 0; 1; 0]%N. split; [now apply wf_bytesb_spec|]. split; [apply fixed_len; cbn; lia|split; [split; reflexivity|]]. apply (aid_256 0). lia.
    + exists [0; 1; 0]%N. split; [now apply wf_bytesb_spec|]. split; [apply fixed_len; cbn; lia|split; [split; reflexivity|]]. apply (aid_256 0). lia.
    + exists [1; 0]%N. split; [now apply wf_bytesb_spec|]. split; [apply fixed_len; cbn; lia|split; [split; reflexivity|]].
      apply Forall_cons_iff in Wb as [_ Wb]. apply Forall_cons_iff in Wb as [_ Wb]. apply Forall_cons_iff in Wb as [B _].
      unfold aid_field. cbn - [N.mul N.add le_val accepted_aid]. rewrite le2. apply aid_256. exact B.
    + exists (zeros 7). split; [apply wf_zeros|]. split; [apply zeros_fixed|]. split; [split; reflexivity|]. apply A. cbn [length]. lia.
Qed.
Lemma mgmt_telling {W R} (t : BodyType W R) P : Accepted t P -> Bad (bt_read t) -> BodyTells (bt_read t) P -> Telling (rd_mgmt t false) (type_fits 0).
Proof.
  intros A B T bs e Wb E. split; [|split].
  - intros ->. exact (bad_final _ _ (mgmt_bad t B) E).
  - intros NB F. eapply mgmt_curable; eassumption.
  - intros N. eapply mgmt_other; eassumption.
Qed.
Lemma telling_elements : Telling (rd_mgmt Beacon false) (type_fits 0) /\ Telling (rd_mgmt ProbeResponse false) (type_fits 0) /\
  Telling (rd_mgmt Authentication false) (type_fits 0) /\ Telling (rd_mgmt AssociationRequest false) (type_fits 0) /\
  Telling (rd_mgmt AssociationResponse false) (type_fits 0) /\ Telling (rd_mgmt Deauthentication false) (type_fits 0) /\
  Telling (rd_mgmt Disassociation false) (type_fits 0) /\ Telling (rd_mgmt ProbeRequest false) (type_fits 0).
Proof.
  destruct accepted_elements as (A1 & A2 & A3 & A4 & A5 & A6 & A7 & A8).
  destruct bodies_bad as (B1 & B2 & B3 & B4 & B5 & B6 & _).
  split; [exact (mgmt_telling _ _ A1 B1 (tells_fixed _ _))|]. split; [exact (mgmt_telling _ _ A2 B1 (tells_fixed _ _))|].
  split; [exact (mgmt_telling _ _ A3 B2 (tells_fixed _ _))|]. split; [exact (mgmt_telling _ _ A4 B3 (tells_fixed _ _))|].
  split; [exact (mgmt_telling _ _ A5 B4 tells_assoc_resp)|]. split; [exact (mgmt_telling _ _ A6 B5 (tells_fixed _ _))|].
  split; [exact (mgmt_telling _ _ A7 B5 (tells_fixed _ _))|]. exact (mgmt_telling _ _ A8 B6 (tells_fixed _ _)).
Qed.
Lemma telling_actions : Telling (rd_mgmt RawAction false) (type_fits 0) /\ Telling (rd_mgmt RawVendorSpecificAction false) (type_fits 0) /\
  Telling (rd_mgmt MeshPeeringOpen false) (type_fits 0) /\ Telling (rd_mgmt MeshPeeringConfirm false) (type_fits 0) /\
  Telling (rd_mgmt MeshPeeringClose false) (type_fits 0).
Proof.
  destruct accepted_actions as (A1 & A2 & A3 & A4 & A5).
  destruct bodies_bad as (_ & _ & _ & _ & _ & _ & B1 & B2 & B3 & B4 & B5).
  split; [exact (mgmt_telling _ _ A1 B1 tells_raw_action)|]. split; [exact (mgmt_telling _ _ A2 B2 tells_vendor)|].
  split; [exact (mgmt_telling _ _ A3 B3 tells_open)|]. split; [exact (mgmt_telling _ _ A4 B4 tells_confirm)|]. exact (mgmt_telling _ _ A5 B5 tells_close).
Qed.

(** ** Data frames *)
Lemma data_bad : Bad (rd_data false).
Proof.
  intros a b E. unfold rd_data in *. cbn [rbind] in *.
  assert (H : Bad rd_data_header).
  { clear. intros a b E. unfold rd_data_header in *.
    destruct (gread (rd_le 2) a 0) as [[fcf o]|e|] eqn:G0; cbn [rbind] in E; try discriminate.
    2: { injection E as ->. now rewrite (gread_bad _ _ _ b (rd_le_bad 2) G0). }
    rewrite (gread_ext _ _ _ b _ _ (rd_le_ext 2) G0). cbn [rbind]. destruct (fcf_frame_type fcf); try exact E.
    repeat match type of E with
    | rbind (gread ?r ?a ?o) _ = Err _ => let G := fresh "G" in destruct (gread r a o) as [[? ?]|?|] eqn:G; cbn [rbind] in E; try discriminate;
      [(apply (gread_ext _ _ _ b) in G; [|apply rd_ne_ext || apply rd_bytes_ext]); rewrite G; cbn [rbind]
      |injection E as ->; (apply (gread_bad _ _ _ b) in G; [|apply rd_ne_bad || apply rd_bytes_bad]); rewrite G; reflexivity]
    | rbind (rd_opt ?c ?k ?a ?o) _ = Err _ => let G := fresh "G" in destruct (rd_opt c k a o) as [[? ?]|?|] eqn:G; cbn [rbind] in E; try discriminate;
      [apply (rd_opt_ext _ _ _ b) in G; rewrite G; cbn [rbind]|injection E as ->; apply (rd_opt_bad _ _ _ b) in G; rewrite G; reflexivity]
    end.
    match type of E with rbind (rd_opt ?c ?k ?a ?o) _ = Err _ => destruct (rd_opt c k a o) as [[? ?]|?|] eqn:Gz; cbn [rbind] in E; try discriminate end.
    injection E as ->. apply (rd_opt_bad _ _ _ b) in Gz. rewrite Gz. reflexivity. }
  destruct (gread rd_data_header a 0) as [[h o]|e|] eqn:G; cbn [rbind] in E; try discriminate.
  - exfalso. destruct (data_has_payload _); [|discriminate]. unfold slice_from in E. destruct (o <=? length a); discriminate.
  - injection E as ->. now rewrite (gread_bad _ _ _ b H G).
Qed.
Lemma data_size_max b0 b1 : data_header_size b0 b1 <= 36.
Proof. unfold data_header_size. destruct (_ && _), (std_is_qos _), (N.testbit b1 7); lia. Qed.
Lemma telling_data : Telling (rd_data false) (type_fits 2).
Proof.
  intros bs e Wb E. split; [|split].
  - intros ->. exact (bad_final _ _ data_bad E).
  - intros _ F. assert (K : forall more, wf_bytes more -> complete_data (bs ++ more) -> Curable (rd_data false) bs).
    { intros more Wm C. destruct (proj2 (data_accepted_plain (bs ++ more) (proj2 (wf_bytes_app _ _) (conj Wb Wm))) C) as (x & n & X). exists more, (x, n). auto. }
    destruct F as [->|F].
    + apply (K (8%N :: zeros 36)); [constructor; [reflexivity|apply wf_zeros]|]. split; [reflexivity|]. cbn [app length]. rewrite zeros_length.
      pose proof (data_size_max (byte (8%N :: zeros 36) 0) (byte (8%N :: zeros 36) 1)). lia.
    + apply (K (zeros 36)); [apply wf_zeros|]. split.
      * rewrite type_app; [exact F|]. intros ->. discriminate F.
      * rewrite app_length, zeros_length. pose proof (data_size_max (byte (bs ++ zeros 36) 0) (byte (bs ++ zeros 36) 1)). lia.
  - intros N more [x n] Wm X. apply N. destruct (proj1 (data_accepted_plain (bs ++ more) (proj2 (wf_bytes_app _ _) (conj Wb Wm)))) as [T _]; [eauto|].
    destruct bs as [|b bs]; [left; reflexivity|]. right. now rewrite type_app in T by discriminate.
Qed.

(** ** Control frames, subframes, CCMP and GCMP headers *)
Lemma telling_ctrl s f bs e : wf_bytes bs -> rd_ctrl s f bs = Err e -> e <> BadInput /\ Curable (rd_ctrl s f) bs.
Proof.
  intros Wb E. split.
  - intros ->.
    assert (L : forall k o, gread (rd_le k) bs o <> Err BadInput) by (intros; unfold gread, rd_le; destruct (end_bad _ _); [discriminate|]; destruct (_ <? _); discriminate).
    assert (B : forall k o, gread (rd_bytes k) bs o <> Err BadInput) by (intros; unfold gread, rd_bytes; destruct (end_bad _ _); [discriminate|]; destruct (_ <? _); discriminate).
    unfold rd_ctrl in E. destruct s; try discriminate.
    all: repeat match type of E with
      | rbind (gread ?r ?a ?o) _ = Err _ => let G := fresh "G" in destruct (gread r a o) as [[? ?]|?|] eqn:G; cbn [rbind] in E; try discriminate E;
          [clear G; idtac| injection E as ->; first [exact (L _ _ G)|exact (B _ _ G)]] end.
    all: match type of E with rbind (gread ?r ?a ?o) _ = Err _ => let G := fresh "G" in destruct (gread r a o) as [[? ?]|?|] eqn:G; cbn [rbind] in E; try discriminate E;
          injection E as ->; exact (B _ _ G) end.
  - exists (zeros 14). assert (Z : 14 <= length (bs ++ zeros 14)) by (rewrite app_length, zeros_length; lia).
    unfold rd_ctrl. destruct s; try (eexists; split; [apply wf_zeros|reflexivity]).
    all: repeat (first [rewrite gread_le_ok by lia|rewrite gread_bytes_ok by lia]; cbn [rbind Nat.add]).
    all: eexists; split; [apply wf_zeros|reflexivity].
Qed.
Lemma telling_subframe bs e : wf_bytes bs -> rd_subframe bs = Err e -> e <> BadInput /\ Curable rd_subframe bs.
Proof.
  intros Wb E. split.
  - intros ->.
    assert (L : forall k o, gread (rd_le k) bs o <> Err BadInput) by (intros; unfold gread, rd_le; destruct (end_bad _ _); [discriminate|]; destruct (_ <? _); discriminate).
    assert (B : forall k o, gread (rd_bytes k) bs o <> Err BadInput) by (intros; unfold gread, rd_bytes; destruct (end_bad _ _); [discriminate|]; destruct (_ <? _); discriminate).
    unfold rd_subframe in E.
    repeat match type of E with
      | rbind (gread ?r ?a ?o) _ = Err _ => let G := fresh "G" in destruct (gread r a o) as [[? ?]|?|] eqn:G; cbn [rbind] in E; try discriminate E;
          [clear G; idtac| injection E as ->; first [exact (L _ _ G)|exact (B _ _ G)]] end.
    match type of E with rbind (gread ?r ?a ?o) _ = Err _ => let G := fresh "G" in destruct (gread r a o) as [[? ?]|?|] eqn:G; cbn [rbind] in E; try discriminate E;
          injection E as ->; exact (B _ _ G) end.
  - set (m := bs ++ zeros 14). set (len := N.to_nat (le_val (firstn 2 (skipn 12 m)))).
    assert (Z : 14 <= length m) by (unfold m; rewrite app_length, zeros_length; lia).
    exists (zeros 14 ++ zeros (S len)). rewrite app_assoc. fold m. set (m2 := m ++ zeros (S len)).
    assert (Z2 : 14 + S len <= length m2) by (unfold m2; rewrite app_length, zeros_length; lia).
    unfold rd_subframe. do 2 (rewrite gread_bytes_ok by lia; cbn [rbind Nat.add]). rewrite gread_le_ok by lia. cbn [rbind Nat.add].
    assert (Q : N.to_nat (le_val (firstn 2 (skipn 12 m2))) = len).
    { unfold len, m2. rewrite skipn_more by lia. rewrite firstn_more by (rewrite skipn_length; lia). reflexivity. }
    rewrite Q. unfold gread. rewrite end_bad_lt by lia. unfold rd_bytes at 1. rewrite skipn_length, (proj2 (Nat.ltb_ge _ _)) by lia.
    eexists. split; [apply wf_bytes_app; split; apply wf_zeros|reflexivity].
Qed.
Lemma telling_crypto : Telling rd_crypto_header ext_iv_fits.
Proof.
  intros bs e Wb E.
  assert (R : forall m, 8 <= length m -> rd_crypto_header m = if N.testbit (byte m 3) 5 then Ok (mkCH (firstn 2 (firstn 8 m) ++ skipn 4 (firstn 8 m)) (shl6_u8 (byte m 3)), 8) else Err BadInput).
  { intros m L. unfold rd_crypto_header. rewrite gread_bytes_ok by lia. cbn [rbind skipn Nat.add].
    assert (Q : nth 3 (firstn 8 m) 0%N = byte m 3) by (do 8 (destruct m as [|? m]; [cbn in L; lia|]); reflexivity).
    rewrite Q. destruct (N.testbit (byte m 3) 5); reflexivity. }
  assert (S : forall m, length m < 8 -> exists e, rd_crypto_header m = Err e /\ e <> BadInput).
  { intros m L. unfold rd_crypto_header, gread, rd_bytes. cbn [skipn]. rewrite (proj2 (Nat.ltb_lt _ _)) by exact L.
    destruct (end_bad _ _); cbn [rbind]; eexists; split; try reflexivity; discriminate. }
  assert (F : ~ ext_iv_fits bs -> Final rd_crypto_header bs).
  { intros N more x _ X. apply N. unfold ext_iv_fits. destruct (Nat.lt_ge_cases (length bs) 4) as [L|L]; [auto|]. right.
    destruct (Nat.lt_ge_cases (length (bs ++ more)) 8) as [L8|L8]; [destruct (S _ L8) as (e' & Y & _); congruence|].
    rewrite (R _ L8) in X. replace (byte (bs ++ more) 3) with (byte bs 3) in X by (unfold byte; rewrite app_nth1; [reflexivity|lia]).
    destruct (N.testbit (byte bs 3) 5); [reflexivity|discriminate]. }
  split; [|split; [|exact F]].
  - intros ->. apply F. intros [L|L].
    + destruct (S bs) as (e' & Y & NB); [lia|congruence].
    + destruct (Nat.lt_ge_cases (length bs) 8) as [L8|L8]; [destruct (S _ L8) as (e' & Y & NB); congruence|].
      rewrite (R _ L8), L in E. discriminate.
  - intros NB Fi. set (more := if length bs <? 4 then zeros (3 - length bs) ++ 32%N :: zeros 4 else zeros 4).
    assert (Wm : wf_bytes more).
    { unfold more. destruct (_ <? _); [|apply wf_zeros]. apply wf_bytes_app. split; [apply wf_zeros|]. constructor; [reflexivity|apply wf_zeros]. }
    assert (L8 : 8 <= length (bs ++ more)).
    { rewrite app_length. unfold more. destruct (Nat.ltb_spec (length bs) 4); [rewrite app_length; cbn [length]|]; rewrite !zeros_length; lia. }
    assert (T : N.testbit (byte (bs ++ more) 3) 5 = true).
    { unfold more. destruct Fi as [L|T].
      - rewrite (proj2 (Nat.ltb_lt _ _)) by exact L. unfold byte. rewrite app_assoc, app_nth2; rewrite app_length, zeros_length; [|lia].
        replace (3 - (length bs + (3 - length bs))) with 0 by lia. reflexivity.
      - destruct (Nat.ltb_spec (length bs) 4) as [L|L].
        + unfold byte in T. rewrite nth_overflow in T by lia. discriminate.
        + unfold byte in *. rewrite app_nth1 by lia. exact T. }
    exists more. eexists. split; [exact Wm|]. rewrite (R _ L8), T. reflexivity.
Qed.

(** ** Key frames *)
Lemma rd_be_ext k : Ext (rd_be k).
Proof.
  intros a b x n E. unfold rd_be in *. destruct (Nat.ltb_spec (length a) k) as [|L]; [discriminate|].
  rewrite app_length, (proj2 (Nat.ltb_ge _ _)) by lia. now rewrite firstn_more.
Qed.
Lemma gnever_be a k o : gread (rd_be k) a o <> Err BadInput.
Proof. unfold gread, rd_be. destruct (end_bad _ _); [discriminate|]. destruct (_ <? _); discriminate. Qed.
Lemma gnever_u8 a o : gread rd_u8 a o <> Err BadInput.
Proof. unfold gread. destruct (end_bad _ _); [discriminate|]. destruct (skipn o a); discriminate. Qed.
Lemma gnever_bytes a k o : gread (rd_bytes k) a o <> Err BadInput.
Proof. unfold gread, rd_bytes. destruct (end_bad _ _); [discriminate|]. destruct (_ <? _); discriminate. Qed.
(** up to the packet body *)
Lemma key_bad akm : Bad (rd_key_frame akm).
Proof.
  intros a b E. unfold rd_key_frame in *.
  destruct (gread rd_u8 a 0) as [[v o]|e|] eqn:G1; cbn [rbind] in E; try discriminate; [|injection E as ->; now apply gnever_u8 in G1].
  rewrite (gread_ext _ _ _ b _ _ rd_u8_ext G1). cbn [rbind].
  destruct (gread rd_u8 a o) as [[ty o2]|e|] eqn:G2; cbn [rbind] in E; try discriminate; [|injection E as ->; now apply gnever_u8 in G2].
  rewrite (gread_ext _ _ _ b _ _ rd_u8_ext G2). cbn [rbind]. destruct (negb (ty =? 3)%N); [reflexivity|].
  destruct (gread (rd_be 2) a o2) as [[l o3]|e|] eqn:G3; cbn [rbind] in E; try discriminate; [|injection E as ->; now apply gnever_be in G3].
  rewrite (gread_ext _ _ _ b _ _ (rd_be_ext 2) G3). cbn [rbind].
  unfold pread in *. destruct (gread (rd_bytes (N.to_nat l + 4)) a 0) as [[p o4]|e|] eqn:G4; cbn [rbind] in E; try discriminate; [|injection E as ->; now apply gnever_bytes in G4].
  rewrite (gread_ext _ _ _ b _ _ (rd_bytes_ext _) G4). cbn [rbind]. exact E.
Qed.
Lemma key_complete akm bs e : wf_bytes bs -> 4 <= length bs -> 4 + announced bs <= length bs -> rd_key_frame akm bs = Err e -> Final (rd_key_frame akm) bs.
Proof.
  intros Wb L4 L E more x _ X. unfold announced in L. unfold rd_key_frame in *.
  destruct bs as [|b0 [|b1 bs]]; cbn [length] in L4; try lia. cbn [app] in X. rewrite gu8 in E, X. cbn [rbind] in *.
  unfold gread at 1 in E. unfold gread at 1 in X. rewrite end_bad_lt in E, X by (cbn [length]; lia). cbn [skipn rd_u8 rbind Nat.add] in *.
  destruct (negb (b1 =? 3)%N); [discriminate|].
  assert (G : gread (rd_be 2) (b0 :: b1 :: bs) 2 = Ok (be_val (firstn 2 bs), 4)).
  { unfold gread. rewrite end_bad_lt by (cbn [length]; lia). unfold rd_be. cbn [skipn]. now rewrite (proj2 (Nat.ltb_ge _ _)) by lia. }
  change (b0 :: b1 :: bs ++ more) with ((b0 :: b1 :: bs) ++ more) in X. rewrite G in E. rewrite (gread_ext _ _ _ more _ _ (rd_be_ext 2) G) in X. cbn [rbind] in *.
  unfold pread in *.
  destruct (gread (rd_bytes (N.to_nat (be_val (firstn 2 bs)) + 4)) (b0 :: b1 :: bs) 0) as [[p o4]|e'|] eqn:G4.
  - rewrite (gread_ext _ _ _ more _ _ (rd_bytes_ext _) G4) in X. cbn [rbind] in *. congruence.
  - rewrite gread_bytes_ok in G4; [discriminate|cbn [length] in *; lia|lia].
  - rewrite gread_bytes_ok in G4; [discriminate|cbn [length] in *; lia|lia].
Qed.
End Facts.
