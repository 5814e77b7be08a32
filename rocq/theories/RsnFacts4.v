(** The properties of the RSN element. *)
From Verif Require Import Base BaseFacts Bits Layouts BitsFacts Enums Utf8 Elements SpecElements ElementsFacts
  ElementTypes SpecElementTypes ElementTypesFacts StepsFacts Suites Rsn SpecRsn RsnFacts RsnFacts2 RsnFacts3.

Section Facts.
Context {cfg : Cfg}.
Lemma fit_255 v : length (enc_rsn 4 v) <= 255 -> lists_fit v.
Proof.
  unfold enc_rsn, lists_fit. rewrite !app_length. intros L.
  destruct v as [g [p|] [a|] c [k|] m]; cbn [v_group v_pairwise v_akm v_caps v_pmkids v_group_mgmt opt_ok opt_enc] in *;
    unfold enc_list in L; rewrite ?app_length, ?le_bytes_length in L; repeat split; lia.
Qed.
Lemma rsn_write x v : shows x v -> ok_view v -> gap_free v -> length (enc_rsn 4 v) <= 255 -> Writes (wr_rsn x) (enc_rsn 4 v).
Proof. intros S O G L. apply gap_free_eq in G. rewrite <- G. now apply wr_rsn_W, fit_255. Qed.
Lemma rsn_round_trip x v : shows x v -> ok_view v -> gap_free v -> length (enc_rsn 4 v) <= 255 ->
  end_not_empty_list v -> caps_readable v ->
  exists y, Writes (wr_rsn x) (enc_rsn 4 v) /\ ReadsAll rd_rsn (enc_rsn 4 v) y /\ shows y v /\ rsn_eqb x y = true.
Proof.
  intros S O G L E C. exists (received v). split; [|split; [|split; [apply received_shows|]]].
  - apply (rsn_write x v); auto.
  - apply rd_rsn_written; auto. now apply fit_255.
  - apply (rsn_eqb_spec x (received v) v v); auto using received_shows.
Qed.
Lemma enc_standard v : pmkid_count v = 0 -> enc_rsn 4 v = enc_rsn 1 v.
Proof.
  unfold pmkid_count, enc_rsn. destruct (v_pmkids v) as [[|]|]; intros E; [reflexivity|discriminate E|reflexivity].
Qed.
Lemma enc_not_standard v : ok_view v -> length (enc_rsn 4 v) <= 255 -> (enc_rsn 4 v = enc_rsn 1 v <-> pmkid_count v = 0).
Proof.
  intros (_ & _ & _ & _ & O & _) L. split; [|apply enc_standard]. unfold enc_rsn, pmkid_count. intros E.
  unfold enc_rsn in L. rewrite !app_length in L.
  repeat apply app_inv_head in E. destruct (v_pmkids v) as [l|]; [|reflexivity]. cbn [opt_enc opt_ok] in *.
  unfold enc_list in *. rewrite <- !app_assoc in E. rewrite !app_length, le_bytes_length in L.
  rewrite (concat_length_const (fun p : bytes => p) 16) in L by (eapply Forall_impl; [|exact O]; intros ? [X _]; exact X).
  apply (f_equal (firstn 2)) in E. rewrite !firstn_app_exact in E by now rewrite le_bytes_length.
  apply le_bytes_inj in E; [lia|..]; change (256 ^ N.of_nat 2)%N with 65536%N; lia.
Qed.
Lemma rsn_measure_ok x v : shows x v -> ok_view v -> pmkid_count v = 0 -> rsn_measure x = length (enc_rsn 1 v).
Proof. intros S O P. rewrite <- enc_standard by exact P. pose proof (rsn_measure_spec x v S O). lia. Qed.

(** witnesses *)
Definition one_pmkid : Rsn :=
  with_pmkid_list (with_akm_list (with_group_data_cipher_suite rsn_new Cs_Ccmp128) [Ak_Sae]) [map N.of_nat (seq 0 16)].
Definition one_pmkid_view : RsnView :=
  mkView (Some Cs_Ccmp128) (Some []) (Some [Ak_Sae]) (Some 0%N) (Some [map N.of_nat (seq 0 16)]) None.
Lemma one_pmkid_shows : shows one_pmkid one_pmkid_view.
Proof. repeat split. Qed.
Lemma one_pmkid_ok : ok_view one_pmkid_view /\ gap_free one_pmkid_view /\ length (enc_rsn 4 one_pmkid_view) <= 255.
Proof.
  split; [|split].
  - cbn. repeat split; repeat constructor; cbn; lia.
  - apply gap_free_eq. reflexivity.
  - vm_compute. repeat constructor.
Qed.
Lemma pmkid_measure_wrong : exists x v, shows x v /\ ok_view v /\ gap_free v /\
  exists bs, Writes (wr_rsn x) bs /\ rsn_measure x + 12 = length bs.
Proof.
  exists one_pmkid, one_pmkid_view. destruct one_pmkid_ok as (O & G & L).
  split; [apply one_pmkid_shows|]. split; [exact O|]. split; [exact G|]. eexists. split.
  - apply (rsn_write _ _ one_pmkid_shows); auto.
  - rewrite <- (rsn_measure_spec _ _ one_pmkid_shows O). reflexivity.
Qed.
Lemma pmkid_count_wrong : exists x v, shows x v /\ ok_view v /\ gap_free v /\
  exists bs, Writes (wr_rsn x) bs /\ bs <> enc_rsn 1 v.
Proof.
  exists one_pmkid, one_pmkid_view. destruct one_pmkid_ok as (O & G & L).
  split; [apply one_pmkid_shows|]. split; [exact O|]. split; [exact G|]. eexists. split.
  - apply (rsn_write _ _ one_pmkid_shows); auto.
  - intros E. apply enc_not_standard in E; [discriminate E|exact O|exact L].
Qed.
Lemma pmkid_standard_misread : exists v y n, ok_view v /\ gap_free v /\ rd_rsn (enc_rsn 1 v) = Ok (y, n) /\ n < length (enc_rsn 1 v)
  /\ rl_items rd_pmkid (match rsn_pmkids y with Some l => l | None => Arr [] end) = Ok [] /\ rsn_group_mgmt y <> v_group_mgmt v.
Proof.
  exists one_pmkid_view. destruct one_pmkid_ok as (O & G & L).
  destruct (rd_rsn (enc_rsn 1 one_pmkid_view)) as [[y n]| |] eqn:E; [exists y, n|exfalso..].
  - split; [exact O|]. split; [exact G|]. split; [reflexivity|]. revert E.
    destruct cfg as [[] [] []]; vm_compute; intros [= <- <-]; (split; [repeat constructor|split; [reflexivity|discriminate]]).
  - revert E. destruct cfg as [[] [] []]; vm_compute; discriminate.
  - revert E. destruct cfg as [[] [] []]; vm_compute; discriminate.
Qed.
(** received elements that differ in their PMKIDs only *)
Definition other_pmkid_view : RsnView :=
  mkView (Some Cs_Ccmp128) (Some []) (Some [Ak_Sae]) (Some 0%N) (Some [255%N :: map N.of_nat (seq 1 15)]) None.
Lemma pmkids_equal : exists v w x y n m, ok_view v /\ ok_view w /\ gap_free v /\ gap_free w /\ v <> w /\ pmkid_count v = 1 /\ pmkid_count w = 1 /\
  rd_rsn (enc_rsn 1 v) = Ok (x, n) /\ rd_rsn (enc_rsn 1 w) = Ok (y, m) /\ rsn_eqb x y = true.
Proof.
  exists one_pmkid_view, other_pmkid_view. destruct one_pmkid_ok as (O & G & _).
  destruct (rd_rsn (enc_rsn 1 one_pmkid_view)) as [[x n]| |] eqn:E; [exists x|exfalso; revert E; destruct cfg as [[] [] []]; vm_compute; discriminate..].
  destruct (rd_rsn (enc_rsn 1 other_pmkid_view)) as [[y m]| |] eqn:F; [exists y, n, m|exfalso; revert F; destruct cfg as [[] [] []]; vm_compute; discriminate..].
  split; [exact O|]. split; [cbn; repeat split; repeat constructor; cbn; lia|]. split; [exact G|]. split; [apply gap_free_eq; reflexivity|].
  split; [intros X; apply (f_equal v_pmkids) in X; vm_compute in X; discriminate X|]. do 4 (split; [reflexivity|]).
  destruct cfg as [[] [] []]; vm_compute in E; vm_compute in F; injection E as <- _; injection F as <- _; vm_compute; reflexivity.
Qed.
Lemma big_endian_caps : native_le = false -> exists x v bs y, shows x v /\ ok_view v /\ gap_free v /\
  Writes (wr_rsn x) bs /\ ReadsAll rd_rsn bs y /\ rsn_caps y <> rsn_caps x.
Proof.
  intros NL. set (x := with_rsn_capabilities rsn_new 1). set (v := mkView (Some Cs_Ccmp128) (Some []) (Some []) (Some 1%N) None None).
  assert (S : shows x v) by (repeat split). assert (O : ok_view v) by (cbn; repeat split; auto; constructor).
  assert (G : gap_free v) by (apply gap_free_eq; reflexivity).
  exists x, v, (enc_rsn 4 v). destruct (rd_rsn (enc_rsn 4 v)) as [[y n]| |] eqn:E; [exists y|exfalso..].
  - split; [exact S|]. split; [exact O|]. split; [exact G|]. split; [|split].
    + apply (rsn_write x v); auto. vm_compute. repeat constructor.
    + unfold ReadsAll. rewrite E. revert E. destruct cfg as [[] [] []]; try discriminate NL; vm_compute; intros [= <- <-]; reflexivity.
    + revert E. destruct cfg as [[] [] []]; try discriminate NL; vm_compute; intros [= <- <-]; discriminate.
  - revert E. destruct cfg as [[] [] []]; vm_compute; discriminate.
  - revert E. destruct cfg as [[] [] []]; vm_compute; discriminate.
Qed.
(** the element made from the constant [OWE] *)
Definition owe_view : RsnView :=
  mkView (Some Cs_Ccmp128) (Some [Cs_Ccmp128]) (Some [Ak_OpportunisticWirelessEncryption]) (Some (with_mfp_config Of_Required 0)) None (Some Cs_Ccmp128).
Lemma owe_gap : ~ gap_free owe_view /\ shows RSN_OWE owe_view /\ exists bs, Writes (wr_rsn RSN_OWE) bs /\ rsn_measure RSN_OWE = length bs + 4 /\
  Writes (wr_wrapped (elem_of RsnElement RSN_OWE)) (48%N :: N.of_nat (length bs + 4) :: bs).
Proof.
  split; [|split]. { intros (_ & _ & _ & _ & H). apply H; [discriminate|reflexivity]. }
  { repeat split. }
  assert (W : Writes (wr_rsn RSN_OWE) (enc_rsn 4 (up_to_gap owe_view))).
  { apply wr_rsn_W; [repeat split|cbn; repeat split; repeat constructor|vm_compute; repeat constructor]. }
  eexists. split; [exact W|]. split; [vm_compute; reflexivity|].
  unfold wr_wrapped, elem_of. cbn [e_id RsnElement et_id].
  apply pwrite0_W. cbn [e_measure e_write et_measure et_write].
  eapply Writes_eq; [|reflexivity].
  change (N.of_nat (length (enc_rsn 4 (up_to_gap owe_view)) + 4)) with 24%N.
  eapply Writes_ext with (w := wseq [wr_u8 48; wr_u8 24; wr_rsn RSN_OWE]); [intros buf; reflexivity|].
  eapply Writes_eq; [apply wseq_W; constructor; [apply wr_u8_W|constructor; [apply wr_u8_W|constructor; [exact W|constructor]]]|]. vm_compute. reflexivity.
Qed.
Lemma empty_list_lost : strict_end = true -> exists x v bs y, shows x v /\ ok_view v /\ gap_free v /\
  Writes (wr_rsn x) bs /\ ReadsAll rd_rsn bs y /\ rsn_eqb x y = false.
Proof.
  intros SE. set (x := with_pairwise_cipher_suite_list rsn_new []). set (v := mkView (Some Cs_Ccmp128) (Some []) None None None None).
  assert (S : shows x v) by (repeat split). assert (O : ok_view v) by (cbn; repeat split; auto; constructor).
  assert (G : gap_free v) by (apply gap_free_eq; reflexivity).
  exists x, v, (enc_rsn 4 v). destruct (rd_rsn (enc_rsn 4 v)) as [[y n]| |] eqn:E; [exists y|exfalso..].
  - split; [exact S|]. split; [exact O|]. split; [exact G|]. split; [|split].
    + apply (rsn_write x v); auto. vm_compute. repeat constructor.
    + unfold ReadsAll. rewrite E. revert E. destruct cfg as [[] [] []]; try discriminate SE; vm_compute; intros [= <- <-]; reflexivity.
    + destruct cfg as [[] [] []]; try discriminate SE; vm_compute in E; injection E as <- <-; vm_compute; reflexivity.
  - revert E. destruct cfg as [[] [] []]; vm_compute; discriminate.
  - revert E. destruct cfg as [[] [] []]; vm_compute; discriminate.
Qed.
Lemma rsn_parse bs : wf_bytes bs ->
  ((exists e, rd_rsn bs = Err e) /\ (forall rest, bs <> [1; 0]%N ++ rest)) \/
  exists y n tail, rd_rsn bs = Ok (y, n) /\ bs = raw_enc y ++ tail /\ stops_at y tail /\
    length (raw_enc y) <= n <= length (raw_enc y) + 2 /\ n <= length bs.
Proof.
  intros W. destruct (rd_rsn_any bs W) as [H|(y & n & t & ? & ? & ? & _ & ? & ?)]; [now left|right]. exists y, n, t. auto.
Qed.
Lemma rsn_parse_rewrite bs y n : wf_bytes bs -> native_le = true -> (N.of_nat (length bs) < 65536)%N ->
  rd_rsn bs = Ok (y, n) -> exists tail, bs = raw_enc y ++ tail /\ stops_at y tail /\ Writes (wr_rsn y) (raw_enc y).
Proof.
  intros W NL LB E. destruct (rd_rsn_any bs W) as [[[e E'] _]|(y' & n' & t & E' & -> & S & _)]; [congruence|].
  rewrite E in E'. injection E' as <- <-. exists t. split; [reflexivity|]. split; [exact S|].
  eapply rsn_reread; eauto. rewrite app_length in LB. lia.
Qed.
End Facts.

(** ** Builder *)
Lemma built_array x : built x -> exists v, array_view x = Some v /\ gap_free v.
Proof.
  induction 1 as [|x g _ (v & E & G)|x l _ (v & E & G)|x l _ (v & E & G)|x c _ (v & E & G)|x l _ (v & E & G)|x g _ (v & E & G)].
  { eexists. split; [reflexivity|]. apply gap_free_eq. reflexivity. }
  all: apply gap_free_eq in G; destruct x as [xg [[xp|]|] [[xa|]|] xc [[xk|]|] xm]; cbn in E; try discriminate E; injection E as <-;
    eexists; (split; [reflexivity|]); apply gap_free_eq; cbn in G |- *;
    destruct xg; try discriminate G; destruct xc; try discriminate G; destruct xm; try discriminate G; try reflexivity.
Qed.
Lemma array_view_shows x v : array_view x = Some v -> shows x v.
Proof.
  destruct x as [xg [[xp|]|] [[xa|]|] xc [[xk|]|] xm]; cbn; intros E; try discriminate E; injection E as <-; repeat split.
Qed.
Lemma constants_array : forall x, In x [WPA_PERSONAL; WPA_WPA2_PERSONAL; WPA2_PERSONAL; WPA2_WPA3_PERSONAL; WPA3_PERSONAL] ->
  exists v, array_view x = Some v /\ ok_view v /\ gap_free v /\ pmkid_count v = 0 /\ length (enc_rsn 1 v) <= 255.
Proof.
  intros x H. cbn [In] in H. repeat (destruct H as [<-|H]; [eexists; split; [reflexivity|]; split; [cbn; repeat split; repeat constructor|];
    split; [apply gap_free_eq; reflexivity|]; split; [reflexivity|vm_compute; repeat constructor]|]). destruct H.
Qed.
(** the last call of every kind decides *)
Lemma built_fields x : (forall g, rsn_group (with_group_data_cipher_suite x g) = Some g) /\
  (forall l, rsn_pairwise (with_pairwise_cipher_suite_list x l) = Some (Arr l)) /\
  (forall l, rsn_akm (with_akm_list x l) = Some (Arr l)) /\ (forall c, rsn_caps (with_rsn_capabilities x c) = Some c) /\
  (forall l, rsn_pmkids (with_pmkid_list x l) = Some (Arr l)) /\
  (forall g, rsn_group_mgmt (with_group_management_cipher_suite x g) = Some g).
Proof. repeat split. Qed.
(** ** Optional features *)
Lemma mfp_written_read : exists x caps, (caps < 65536)%N /\ mfp_config (with_mfp_config x caps) <> x.
Proof. exists Of_Required, 0%N. split; [reflexivity|]. vm_compute. discriminate. Qed.
Lemma mfp_standard : exists x, of_is_capable x = true /\ mfpc (with_mfp_config x 0) = false.
Proof. exists Of_Capable. split; reflexivity. Qed.
Lemma mfp_received : exists caps, mfpr caps = true /\ mfpc caps = true /\ of_is_capable (mfp_config caps) = false.
Proof. exists 192%N. repeat split. Qed.
(** What is correct: writing "required" sets both bits, writing "disabled" clears both, and a peer
    without any protection bit is read as disabled. *)
Lemma mfp_required_bits caps :
  mfpr (with_mfp_config Of_Required caps) = true /\ mfpc (with_mfp_config Of_Required caps) = true /\
  mfpr (with_mfp_config Of_Disabled caps) = false /\ mfpc (with_mfp_config Of_Disabled caps) = false /\
  (mfp_config caps = Of_Disabled <-> mfpr caps = false /\ mfpc caps = false).
Proof.
  unfold mfpr, mfpc, with_mfp_config, mfp_config, lset, lget.
  change (lpos RsnCapabilities_layout "mfp_config") with (Some (6, 2)%N). cbv beta iota.
  rewrite !bf_set_bit. repeat (split; [reflexivity|]).
  pose proof (bf_get_bound 6 2 caps) as B. pose proof (bf_get_bit 6 2 caps 0) as B0. pose proof (bf_get_bit 6 2 caps 1) as B1.
  change (0 + 6)%N with 6%N in B0. change (1 + 6)%N with 7%N in B1. cbn [N.ltb N.compare Pos.compare Pos.compare_cont andb] in B0, B1.
  rewrite <- B0, <- B1. clear B0 B1. change (2 ^ 2)%N with 4%N in B.
  destruct (bf_get 6 2 caps) as [|[[p|p|]|[p|p|]|]]; try lia; vm_compute; intuition discriminate.
Qed.
