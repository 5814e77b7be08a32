From Verif Require Import Base BaseFacts SpecBase Elements SpecElements ElementsFacts ElementTypes SpecElementTypes ElementTypesFacts
  ElementTypesFacts2 ElementTypesFacts3 ElementTypesFacts5 SpecUtf8 Utf8 Utf8Facts SpecResend Accessors Rsn SpecRsn RsnFacts RsnFacts2 RsnFacts3 RsnFacts4 DataFacts4 ResendFacts ResendFacts2.

Section Facts.
Context {cfg : Cfg}.

Lemma rates_iter_resent t bs x n : t = SupportedRatesElement \/ t = ExtendedSupportedRatesElement -> wf_bytes bs -> length bs <= 255 ->
  et_read t bs = Ok (x, n) -> Writes (rates_write t (Iter x)) bs.
Proof.
  intros T W L E. assert (Ww : Writes (et_write t x) bs).
  { destruct T; subst t; [destruct (rates_resent bs x n W L E) as (_ & _ & _ & H & _)|destruct (extended_rates_resent bs x n W L E) as (_ & _ & _ & H & _)]; exact H. }
  assert (X : rates_items (Iter x) = Ok x) by apply rates_collect_id.
  eapply Writes_ext; [|exact Ww]. intros buf. unfold rates_write. now rewrite X.
Qed.

(** ** HT operation *)
Lemma le_bytes_wide l k : wf_bytes l -> le_bytes (length l + k) (le_val l) = l ++ repeat 0%N k.
Proof.
  intros W. rewrite <- (le_val_app_zeros l k). replace (length l + k) with (length (l ++ repeat 0%N k)) by now rewrite app_length, repeat_length.
  apply le_bytes_val. unfold wf_bytes in *. rewrite Forall_app. split; [exact W|]. apply Forall_forall. intros x H. apply repeat_spec in H. subst. reflexivity.
Qed.
Lemma ht_op_resent bs x n : wf_bytes bs -> rd_ht_op bs = Ok (x, n) -> Writes (wr_ht_op x) (kept_ht_op bs).
Proof.
  intros W E. pose proof (rd_ht_op_any bs) as H. destruct (Nat.leb_spec 20 (length bs)) as [L|L]; [|destruct H as [e H]; congruence].
  rewrite E in H. apply (f_equal (fun r => match r with Ok (v, _) => v | _ => x end)) in H. cbv beta iota in H. subst x. clear E.
  destruct bs as [|b0 [|b1 [|b2 [|b3 [|b4 [|b5 bs]]]]]]; try (cbn in L; lia).
  repeat match goal with W : wf_bytes (_ :: _) |- _ => apply wf_bytes_cons in W as [? W] end.
  unfold wr_ht_op, kept_ht_op. cbn [ho_channel ho_info ho_mcs hd nth].
  eapply Writes_eq.
  { apply wseq_W. constructor; [apply wr_u8_small; assumption|]. constructor; [apply wr_bytes_W|]. constructor; [|constructor].
    apply wseq_W. constructor; [apply wr_bytes_W|]. constructor; [apply wr_bytes_W|constructor]. }
  cbn [concat mcs_rx mcs_flags]. rewrite !app_nil_r.
  assert (W4 : wf_bytes (firstn 4 (skipn 10 bs))) by now apply wf_firstn, wf_skipn.
  assert (L4 : length (firstn 4 (skipn 10 bs)) = 4) by (rewrite firstn_length, skipn_length; cbn [length] in L; lia).
  change (skipn 16 (b0 :: b1 :: b2 :: b3 :: b4 :: b5 :: bs)) with (skipn 10 bs).
  pose proof (le_bytes_wide _ 4 W4) as E4. rewrite L4 in E4. cbn [Nat.add] in E4. rewrite E4.
  assert (E5 : be_bytes 8 (le_val (firstn 5 (skipn 1 (b0 :: b1 :: b2 :: b3 :: b4 :: b5 :: bs)))) = [0; 0; 0; b5; b4; b3; b2; b1]%N).
  { cbn [skipn firstn]. unfold be_bytes. pose proof (le_bytes_wide [b1; b2; b3; b4; b5] 3 ltac:(repeat constructor; assumption)) as X.
    cbn [length Nat.add] in X. rewrite X. reflexivity. }
  rewrite E5. cbn [firstn skipn app]. do 6 f_equal.
  destruct bs as [|c0 [|c1 [|c2 [|c3 [|c4 [|c5 [|c6 [|c7 [|c8 [|c9 bs]]]]]]]]]]; try (cbn in L; lia). cbn [skipn] in L4 |- *.
  destruct bs as [|d0 [|d1 [|d2 [|d3 bs]]]]; try (cbn in L4; lia). reflexivity.
Qed.
Lemma ht_op_lost bs x n : wf_bytes bs -> rd_ht_op bs = Ok (x, n) ->
  ((exists m, rd_ht_op (kept_ht_op bs) = Ok (x, m)) <-> firstn 3 (skipn 1 bs) = [0; 0; 0]%N /\ nth 4 bs 0%N = nth 5 bs 0%N).
Proof.
  intros W E. pose proof (rd_ht_op_any bs) as H. destruct (Nat.leb_spec 20 (length bs)) as [L|L]; [|destruct H as [e H]; congruence].
  rewrite E in H. apply (f_equal (fun r => match r with Ok (v, _) => v | _ => x end)) in H. cbv beta iota in H. subst x. clear E.
  do 20 (destruct bs as [|? bs]; [cbn in L; lia|]).
  repeat match goal with W : wf_bytes (_ :: _) |- _ => apply wf_bytes_cons in W as [? W] end.
  match goal with |- context [kept_ht_op ?l] => pose proof (rd_ht_op_any (kept_ht_op l)) as HK; unfold kept_ht_op in HK; cbn [nth skipn firstn app length Nat.leb] in HK end.
  unfold kept_ht_op. cbn [nth skipn firstn app hd]. rewrite HK. clear HK. cbn [hd].
  split.
  - intros [m X]. apply (f_equal (fun r => match r with Ok (v, _) => le_bytes 5 (ho_info v) | _ => [] end)) in X. cbn [ho_info] in X.
    rewrite (le_bytes_val [0; 0; 0; _; _]%N) in X by (repeat constructor; first [assumption|reflexivity]).
    rewrite (le_bytes_val [_; _; _; _; _]) in X by (repeat constructor; assumption). injection X as <- <- <- -> _. split; reflexivity.
  - intros [X Y]. injection X. intros. subst. eauto.
Qed.
(** ** RSN elements with PMKIDs in the format of the standard *)
Lemma rsn_pmkid_resent : native_le = true -> exists v y n k, ok_view v /\ gap_free v /\ pmkid_count v = 1 /\ rd_rsn (enc_rsn 1 v) = Ok (y, n) /\
  Writes (wr_rsn y) k /\ rsn_measure y + 4 = length k.
Proof.
  intros NL. exists one_pmkid_view. destruct one_pmkid_ok as (O & G & L).
  assert (W : wf_bytes (enc_rsn 1 one_pmkid_view)) by (apply wf_bytesb_spec; vm_compute; reflexivity).
  destruct (rd_rsn (enc_rsn 1 one_pmkid_view)) as [[y n]| |] eqn:E; [exists y, n, (raw_enc y)|exfalso..].
  - split; [exact O|]. split; [exact G|]. split; [reflexivity|]. split; [reflexivity|].
    destruct (rsn_parse_rewrite _ y n W NL ltac:(vm_compute; reflexivity) E) as (_ & _ & _ & Ww). split; [exact Ww|].
    rewrite <- (rsn_announced _ y n E). assert (P : length (pmkid_bytes y) = 4); [|rewrite P; reflexivity].
    revert E. destruct cfg as [[] [] []]; vm_compute; intros [= <- <-]; reflexivity.
  - revert E. destruct cfg as [[] [] []]; vm_compute; discriminate.
  - revert E. destruct cfg as [[] [] []]; vm_compute; discriminate.
Qed.

(** ** Fixed sizes *)
Lemma all_fixed_resent :
  Resent DSSSParameterSetElement (fun x => x) (firstn 1) /\ Resent IBSSParameterSetElement (fun x => x) (firstn 2) /\
  Resent BSSLoadElement (fun x => x) (firstn 5) /\ Resent VHTCapabilitiesElement (fun x => x) (firstn 12) /\
  Resent VHTOperationElement (fun x => x) (firstn 5) /\ Resent MeshConfigurationElement (fun x => x) (firstn 7) /\
  Resent MacAddressKde (fun x => x) (firstn 6) /\ Resent PmkidKde (fun x => x) (firstn 16) /\
  Resent NonceKde (fun x => x) (firstn 32) /\ Resent LifetimeKde (fun x => x) (firstn 4).
Proof.
  split; [eapply fixed_resent; [lia|apply dsss_fixed]|]. split; [eapply fixed_resent; [lia|apply ibss_fixed]|].
  split; [eapply fixed_resent; [lia|apply bss_load_fixed]|]. split; [eapply fixed_resent; [lia|apply vht_cap_fixed]|].
  split; [eapply fixed_resent; [lia|apply vht_op_fixed]|]. split; [eapply fixed_resent; [lia|apply mesh_conf_fixed]|].
  split; [eapply fixed_resent; [lia|apply kde_bytes_fixed; discriminate]|]. split; [eapply fixed_resent; [lia|apply kde_bytes_fixed; discriminate]|].
  split; [eapply fixed_resent; [lia|apply kde_bytes_fixed; discriminate]|]. eapply fixed_resent; [lia|apply lifetime_fixed].
Qed.
Lemma owe_strict : strict_end = true -> exists bs x n k e, wf_bytes bs /\ rd_owe bs = Ok (x, n) /\ Writes (wr_owe x) k /\ rd_owe k = Err e.
Proof.
  intros S. exists [2; 0; 0; 0; 0; 1; 0; 9]%N, (mkOWE [2; 0; 0; 0; 0; 1]%N [] None), 7, [2; 0; 0; 0; 0; 1; 0]%N, BadOffset.
  split; [apply wf_bytesb_spec; reflexivity|]. split; [destruct cfg as [[] [] []]; reflexivity|]. split.
  - apply (wr_owe_W (mkOWE [2; 0; 0; 0; 0; 1]%N [] None)). unfold ok_owe, byte_array. cbn [owe_bssid owe_ssid owe_band].
    split; [split; [reflexivity|apply wf_bytesb_spec; reflexivity]|]. split; [constructor|]. split; [cbn; lia|]. split; [|exact I].
    apply utf8_spec. reflexivity.
  - destruct cfg as [[] [] []]; cbn in S; try discriminate S; reflexivity.
Qed.
Lemma ht_op_changed : exists bs x n k y m, wf_bytes bs /\ rd_ht_op bs = Ok (x, n) /\
  Writes (wr_ht_op x) k /\ rd_ht_op k = Ok (y, m) /\ nth 1 bs 0%N = 5%N /\ nth 1 k 0%N = 0%N /\ x <> y.
Proof.
  set (bs := ([36; 5; 0; 0; 0; 0] ++ repeat 255 10 ++ repeat 0 6)%N).
  assert (W : wf_bytes bs) by (apply wf_bytesb_spec; reflexivity).
  assert (E : exists x n, rd_ht_op bs = Ok (x, n)) by (destruct cfg as [[] [] []]; eexists _, _; vm_compute; reflexivity).
  destruct E as (x & n & E).
  assert (E2 : exists y m, rd_ht_op (kept_ht_op bs) = Ok (y, m)) by (destruct cfg as [[] [] []]; eexists _, _; vm_compute; reflexivity).
  destruct E2 as (y & m & E2).
  exists bs, x, n, (kept_ht_op bs), y, m. split; [exact W|]. split; [exact E|]. split; [now apply (ht_op_resent bs x n)|]. split; [exact E2|].
  split; [reflexivity|]. split; [reflexivity|]. intros ->.
  assert (H : firstn 3 (skipn 1 bs) = [0; 0; 0]%N) by (apply (proj1 (ht_op_lost bs y n W E)); eauto). discriminate H.
Qed.
(** ** Elements *)
Lemma find_map_in {A B} (f : A -> Res serr (option B)) l b : find_map_res f l = Ok (Some b) -> exists a, In a l /\ f a = Ok (Some b).
Proof.
  induction l as [|a l IH]; cbn [find_map_res]; [discriminate|]. destruct (f a) as [[c|]| |] eqn:F; cbn [rbind]; try discriminate.
  - intros [= ->]. exists a. split; [now left|exact F].
  - intros H. destruct (IH H) as (a' & I & E). exists a'. split; [now right|exact E].
Qed.
Lemma filter_map_in {A B} (f : A -> Res serr (option B)) l r b : filter_map_res f l = Ok r -> In b r -> exists a, In a l /\ f a = Ok (Some b).
Proof.
  revert r. induction l as [|a l IH]; cbn [filter_map_res]; intros r; [intros [= <-] []|]. destruct (f a) as [c| |] eqn:F; cbn [rbind]; try discriminate.
  destruct (filter_map_res f l) as [r'| |]; cbn [rbind]; try discriminate. intros [= <-] I.
  assert (K : c = Some b \/ In b r') by (destruct c; [destruct I as [->|I]; auto|auto]).
  destruct K as [->|K]; [exists a; split; [now left|exact F]|]. destruct (IH r' eq_refl K) as (a' & I' & E). exists a'. split; [now right|exact E].
Qed.
Lemma wf_enc_in es tail e : wf_bytes (enc_elements es ++ tail) -> In e es -> wf_bytes (re_slice e) /\ fits e.
Proof.
  intros W I. apply wf_app_inv in W as [W _]. apply in_split in I as (l1 & l2 & ->). unfold enc_elements in W. rewrite map_app, concat_app in W.
  apply wf_app_inv in W as [_ W]. cbn [map concat] in W. apply wf_app_inv in W as [W _]. unfold enc_element in W.
  apply wf_bytes_cons in W as [_ W]. apply wf_bytes_cons in W as [F W]. split; [exact W|]. unfold fits. lia.
Qed.
Lemma resent_found {W R} (t : ElementType W R) back kept block x : Resent t back kept -> lookup_id (et_id t) -> wf_id (et_id t) -> wf_bytes block ->
  (get_first_element t block = Ok (Some x) \/ exists l, get_matching_elements t block = Ok l /\ In x l) ->
  exists es body, raw_elements block = Ok es /\ In (element (et_id t) body) es /\
    Writes (wr_wrapped (elem_of t (back x))) (enc_element (element (et_id t) (kept body))) /\
    wrapped_measure (elem_of t (back x)) = length (enc_element (element (et_id t) (kept body))) /\
    get_first_element t (enc_element (element (et_id t) (kept body))) = Ok (Some x).
Proof.
  intros RS LI WI WB F. destruct (raw_elements_spec block) as (es & tail & E & Eb & _).
  assert (M : exists raw, In raw es /\ match_and_parse t raw = Ok (Some x)).
  { destruct F as [F|(l & F & I)]; unfold get_first_element, get_matching_elements in F; rewrite E in F; cbn [rbind] in F;
      [now apply find_map_in in F|eapply filter_map_in; eauto]. }
  destruct M as (raw & Ir & M). unfold match_and_parse in M. destruct (element_id_matches raw (et_id t)) eqn:Em; [|discriminate].
  apply element_id_matches_spec in Em as [body Er]; [|exact LI]. unfold parse_raw_element in M.
  rewrite (raw_element_body_match _ _ body LI Er) in M. cbn [rbind] in M. unfold res_ok, pread in M.
  destruct (gread (et_read t) body 0) as [[y m]| |] eqn:G; try discriminate. cbn in M. injection M as ->.
  apply gread_inv in G as (EB & k & G & _). cbn [skipn] in G.
  exists es, body. rewrite <- Er. split; [exact E|]. split; [exact Ir|].
  rewrite Eb in WB. destruct (wf_enc_in es tail raw WB Ir) as [Ws Fs]. rewrite Er in Ws, Fs. unfold fits, element in Ws, Fs. cbn [re_slice] in Ws, Fs.
  rewrite app_length in Fs. apply wf_app_inv in Ws as [_ Ws].
  destruct (RS body x k Ws ltac:(lia) G) as (Wk & Lk & Nk & Ww & Mk & m' & Rk).
  assert (Fk : fits (element (et_id t) (kept body))) by (unfold fits, element; cbn [re_slice]; rewrite app_length; lia).
  destruct (wr_wrapped_W (elem_of t (back x)) (et_id t) (kept body)) as [A B]; [split; [reflexivity|split; [exact Mk|exact Ww]]|exact WI|exact Fk|].
  split; [exact A|]. split; [exact B|].
  assert (NE : strict_end = false \/ kept body <> []).
  { unfold end_bad in EB. destruct strict_end; [right|now left]. intros X. rewrite (Nk X) in EB. discriminate. }
  assert (RE : raw_elements (enc_element (element (et_id t) (kept body))) = Ok [element (et_id t) (kept body)]).
  { pose proof (raw_elements_enc [element (et_id t) (kept body)] []) as X. unfold enc_elements in X. cbn [map concat] in X. rewrite !app_nil_r in X.
    apply X; [constructor; [exact Fk|constructor]| |apply iteration_end_nil]. unfold end_visible. cbn [rev app]. destruct NE as [NE|NE]; [now left|right; right].
    unfold element. cbn [re_slice]. intros Y. apply app_eq_nil in Y as [_ Y]. auto. }
  unfold get_first_element. rewrite RE. cbn [rbind find_map_res]. unfold match_and_parse.
  assert (Q : element_id_matches (element (et_id t) (kept body)) (et_id t) = true) by (apply element_id_matches_spec; [exact LI|exists (kept body); reflexivity]).
  rewrite Q. unfold parse_raw_element. rewrite (raw_element_body_match _ _ (kept body) LI eq_refl). cbn [rbind]. unfold pread, gread.
  rewrite end_bad_false by (unfold slack; destruct NE as [->|NE]; [lia|destruct (kept body); [congruence|destruct strict_end; cbn [length]; lia]]).
  cbn [skipn]. rewrite Rk. reflexivity.
Qed.
End Facts.
