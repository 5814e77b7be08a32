(** What becomes of the PMKIDs that do not fit into the announced length of an RSN element. *)
From Verif Require Import Base SpecBase BaseFacts Elements SpecElements ElementsFacts Enums Utf8 SpecUtf8
  ElementTypes SpecElementTypes ElementTypesFacts StepsFacts Suites Rsn SpecRsn RsnFacts RsnFacts2 RsnFacts3 RsnFacts4.

Section Facts.
Context {cfg : Cfg}.
Lemma raw_elements_cons e rest es : fits e -> end_ok (re_slice e ++ rest) -> raw_elements rest = Ok es ->
  raw_elements (enc_element e ++ rest) = Ok (e :: es).
Proof.
  intros F K E. destruct (iter_all_spec rd_raw_tlv rest rd_raw_tlv_NP rd_raw_tlv_IB rd_raw_tlv_P) as (es' & E' & I).
  unfold raw_elements in *. rewrite E in E'. injection E' as <-. apply iter_all_iterates; [apply rd_raw_tlv_P|].
  econstructor; [now apply rd_raw_tlv_ok|rewrite app_length; lia|]. now rewrite skipn_app_exact by reflexivity.
Qed.
Lemma raw_elements_app raws rest es : Forall fits raws -> rest <> [] -> raw_elements rest = Ok es ->
  raw_elements (enc_elements raws ++ rest) = Ok (raws ++ es).
Proof.
  intros F N E. induction F as [|e raws Fe F IH]; [exact E|]. unfold enc_elements in *. cbn [map concat]. rewrite <- app_assoc.
  apply raw_elements_cons; [exact Fe|right|exact IH]. intros X. apply app_eq_nil in X as [_ X]. apply app_eq_nil in X as [_ X]. auto.
Qed.
Lemma chain_writes c bss : Forall2 (fun i bs => Writes (wr_item i) bs) (chain_items c) bss -> Writes (wr_chain c) (concat bss).
Proof.
  revert bss. induction c as [i|i c IH]; intros bss H; cbn [chain_items] in H.
  - inversion H as [|? b ? l Hi Hn]; subst. inversion Hn; subst. cbn [concat]. rewrite app_nil_r.
    eapply Writes_ext; [intros buf; apply wr_chain_end|]. now apply pwrite0_W.
  - inversion H as [|? b ? l Hi Hn]; subst. eapply Writes_ext; [intros buf; apply wr_chain_link|]. cbn [concat].
    eapply Writes_eq; [apply wseq_W; constructor; [exact Hi|constructor; [apply (IH l Hn)|constructor]]|]. cbn [concat]. now rewrite app_nil_r.
Qed.
Lemma items_write is raws : Forall2 item_element is raws -> Forall wf_item is -> Forall fits raws ->
  Forall2 (fun i bs => Writes (wr_item i) bs) is (map enc_element raws).
Proof.
  induction 1 as [|i raw is raws H _ IH]; intros W F; [constructor|]. inversion W; inversion F; subst. cbn [map].
  constructor; [now apply wr_item_W|now apply IH].
Qed.
Lemma short_tlv_W e m body : e_id e = Id 48 -> e_measure e = m -> m <= 255 -> Writes (e_write e) body ->
  Writes (wr_item (Typed e)) ([48%N; N.of_nat m] ++ body).
Proof.
  intros Ei Em L W. cbn [wr_item].
  assert (H : Writes (wr_tlv 48 m (e_write e)) ([48%N; N.of_nat m] ++ body)).
  { assert (H : Writes (wseq [wr_u8 48; wr_u8 (N.of_nat m); e_write e]) ([48%N; N.of_nat m] ++ body)).
    { eapply Writes_eq; [apply wseq_W; constructor; [apply wr_u8_small; lia|constructor; [apply (wr_u8_small (N.of_nat m)); lia|constructor; [exact W|constructor]]]|].
      cbn [concat app]. now rewrite app_nil_r. }
    split; intros buf; unfold wr_tlv; (destruct (Nat.ltb_spec 255 m); [lia|]); apply H. }
  destruct (pwrite0_W _ _ H) as [A B]. split; intros buf; unfold wr_wrapped; rewrite Ei, Em; auto.
Qed.
Lemma told_length x v : shows x v -> ok_view v -> length (enc_rsn 4 v) - 12 * pmkid_count v = rsn_measure x.
Proof. intros S O. pose proof (rsn_measure_spec x v S O). lia. Qed.
Definition cut_view (v : RsnView) : RsnView := mkView (v_group v) (v_pairwise v) (v_akm v) (v_caps v) None None.

Lemma pmkid_fits v : ok_view v -> length (enc_rsn 4 v) - 12 * pmkid_count v <= 255 -> lists_fit v.
Proof.
  intros (_ & _ & _ & _ & Ok' & _) L. unfold enc_rsn, pmkid_count, lists_fit in *. rewrite !app_length in L.
  assert (K : forall k, Forall ok_pmkid k -> length (concat (map (fun p : bytes => p) k)) = length k * 16).
  { intros k F. rewrite (concat_length_const (fun p : bytes => p) 16); [lia|]. eapply Forall_impl; [|exact F]. now intros ? [? _]. }
  destruct v as [g [p|] [a|] c [k|] m]; cbn [v_group v_pairwise v_akm v_caps v_pmkids v_group_mgmt opt_ok opt_enc] in *;
    unfold enc_list in L; rewrite ?app_length, ?le_bytes_length in L; try rewrite (K k Ok') in *; repeat split; lia.
Qed.
Lemma rd_list_cut from off c q : At from off (le_bytes 2 (N.of_nat c) ++ q) -> (N.of_nat c < 65536)%N -> length q < 4 * c ->
  rd_list from off = Ok (None, off + 2).
Proof.
  intros A C L. unfold rd_list.
  rewrite (gread_ok_step (rd_le 2) from off _ _ _ A (rd_le_R 2 (N.of_nat c) C)) by (apply nonempty_length; rewrite le_bytes_length; lia).
  cbn [rbind]. apply At_step in A. rewrite le_bytes_length in *. apply (gread_ok_fail _ _ _ _ A).
  unfold rd_bytes. destruct (Nat.ltb_spec (length q) (N.to_nat (N.of_nat c * 4))); [eauto|lia].
Qed.
Lemma cut_read g p a c k q : let v := mkView (Some g) (Some p) (Some a) (Some c) None None in
  ok_view v -> lists_fit v -> native_le = true -> (N.of_nat k < 65536)%N -> length q < 4 * k ->
  exists n, rd_rsn (enc_rsn 4 v ++ le_bytes 2 (N.of_nat k) ++ q) = Ok (received v, n).
Proof.
  intros v (Og & Op & Oa & Oc & _ & _) (Fp & Fa & _) CR K Q. unfold v in *. clear v.
  cbn [v_group v_pairwise v_akm v_caps v_pmkids v_group_mgmt opt_enc opt_ok] in *.
  assert (Lp : Forall (fun c => length (enc_cipher c) = 4 * 1) p) by (apply Forall_forall; intros; apply enc_cipher_len).
  assert (La : Forall (fun c => length (enc_akm c) = 4 * 1) a) by (apply Forall_forall; intros; apply enc_akm_len).
  unfold rd_rsn, enc_rsn. cbn [v_group v_pairwise v_akm v_caps v_pmkids v_group_mgmt opt_enc opt_ok].
  rewrite !app_nil_r, <- !app_assoc.
  match goal with |- context [gread (rd_le 2) ?bs 0] => pose proof (At_start bs) as A end.
  rewrite (gread_step (rd_le 2) _ 0 (le_bytes 2 1) 1%N _ A (rd_le_R 2 1 eq_refl)) by apply le2_ne.
  apply At_step in A. cbn [rbind N.eqb Pos.eqb negb].
  rewrite (gread_ok_step rd_cipher _ _ _ _ _ A (rd_cipher_R _ Og)) by apply enc_cipher_ne. apply At_step in A. cbn [rbind].
  destruct (rd_list_enc 1 enc_cipher p _ _ _ A Lp) as [E A1]; [eapply list_count_small; eauto|apply end_ok_app, app_ne, enc_list_ne|].
  rewrite E. clear E A. cbn [rbind].
  destruct (rd_list_enc 1 enc_akm a _ _ _ A1 La) as [E A2]; [eapply list_count_small; eauto|apply end_ok_app, app_ne, le2_ne|].
  rewrite E. clear E A1. cbn [rbind]. unfold rd_ne. rewrite CR.
  rewrite (gread_ok_step (rd_le 2) _ _ _ _ _ A2 (rd_le_R 2 c Oc)) by apply le2_ne. apply At_step in A2. cbn [rbind].
  rewrite (rd_list_cut _ _ _ _ A2 K Q). cbn [rbind]. eexists. reflexivity.
Qed.

Lemma pmkid_spill c is1 x is2 v raws1 raws2 :
  shows x v -> ok_view v -> gap_free v -> 0 < pmkid_count v -> length (enc_rsn 4 v) - 12 * pmkid_count v <= 255 ->
  chain_items c = is1 ++ Typed (elem_of RsnElement x) :: is2 ->
  Forall2 item_element is1 raws1 -> Forall wf_item is1 -> Forall fits raws1 ->
  Forall2 item_element is2 raws2 -> Forall wf_item is2 -> Forall fits raws2 ->
  let body := enc_rsn 4 v in let told := length body - 12 * pmkid_count v in
  let block := enc_elements raws1 ++ [48%N; N.of_nat told] ++ body ++ enc_elements raws2 in
  Writes (wr_chain c) block /\ length (skipn told body) = 12 * pmkid_count v /\
  (forall es, raw_elements (skipn told body ++ enc_elements raws2) = Ok es ->
     raw_elements block = Ok (raws1 ++ mkRaw 48 (firstn told body) :: es)) /\
  (native_le = true -> exists y n, rd_rsn (firstn told body) = Ok (y, n) /\
     shows y (mkView (v_group v) (v_pairwise v) (v_akm v) (v_caps v) None None)).
Proof.
  intros S O G K L EC I1 W1 F1 I2 W2 F2. cbn zeta.
  pose proof (pmkid_fits v O L) as LF. pose proof (rsn_measure_spec x v S O) as M.
  assert (T : length (enc_rsn 4 v) - 12 * pmkid_count v = rsn_measure x) by lia. rewrite T in *. set (told := rsn_measure x) in *.
  assert (WB : Writes (wr_rsn x) (enc_rsn 4 v)). { pose proof G as G'. apply gap_free_eq in G'. rewrite <- G' at 1. now apply wr_rsn_W. }
  assert (LT : length (firstn told (enc_rsn 4 v)) = told) by (apply firstn_length_le; lia).
  split; [|split; [rewrite skipn_length; lia|split]].
  - replace (enc_elements raws1 ++ [48%N; N.of_nat told] ++ enc_rsn 4 v ++ enc_elements raws2)
      with (concat (map enc_element raws1 ++ ([48%N; N.of_nat told] ++ enc_rsn 4 v) :: map enc_element raws2)).
    2:{ rewrite concat_app. cbn [concat]. now rewrite <- !app_assoc. }
    apply chain_writes. rewrite EC. apply Forall2_app; [now apply items_write|]. constructor; [|now apply items_write].
    apply short_tlv_W; [reflexivity|reflexivity|exact L|exact WB].
  - intros es E. apply raw_elements_app; [exact F1|discriminate|].
    replace ([48%N; N.of_nat told] ++ enc_rsn 4 v ++ enc_elements raws2)
      with (enc_element (mkRaw 48 (firstn told (enc_rsn 4 v))) ++ skipn told (enc_rsn 4 v) ++ enc_elements raws2).
    2:{ unfold enc_element. cbn [re_type re_slice]. rewrite LT. cbn [app]. do 2 f_equal. rewrite app_assoc. now rewrite firstn_skipn. }
    apply raw_elements_cons; [unfold fits; cbn [re_slice]; lia| |exact E].
    right. cbn [re_slice]. intros X. apply app_eq_nil in X as [_ X]. apply app_eq_nil in X as [X _].
    apply (f_equal (@length N)) in X. rewrite skipn_length in X. cbn [length] in X. lia.
  - intros NL. destruct v as [[g|] [p|] [a|] [cc|] [k|] m]; cbn in G; unfold pmkid_count in *; cbn [v_pmkids] in *; try lia;
      try (destruct G as (G1 & G2 & G3 & G4 & G5); exfalso; clear - G1 G2 G3 G4; cbn in *; intuition congruence).
    cbn [v_group v_pairwise v_akm v_caps].
    set (h := mkView (Some g) (Some p) (Some a) (Some cc) None None).
    destruct O as (Og & Op & Oa & Oc & Ok' & Om). cbn [v_group v_pairwise v_akm v_caps v_pmkids v_group_mgmt opt_ok] in *.
    assert (KL : length (concat (map (fun p : bytes => p) k)) = length k * 16).
    { rewrite (concat_length_const (fun p : bytes => p) 16); [lia|]. eapply Forall_impl; [|exact Ok']. now intros ? [? _]. }
    assert (EB : enc_rsn 4 (mkView (Some g) (Some p) (Some a) (Some cc) (Some k) m)
      = enc_rsn 4 h ++ le_bytes 2 (N.of_nat (4 * length k)) ++ concat (map (fun p : bytes => p) k) ++ opt_enc enc_cipher m).
    { unfold enc_rsn, h. cbn [v_group v_pairwise v_akm v_caps v_pmkids v_group_mgmt opt_enc]. unfold enc_list at 3. rewrite !app_nil_r, <- !app_assoc. reflexivity. }
    assert (LM : length (opt_enc enc_cipher m) <= 4) by (destruct m; cbn [opt_enc length]; [rewrite enc_cipher_len|]; lia).
    rewrite EB in M |- *. rewrite !app_length, le_bytes_length, KL in M.
    rewrite firstn_app, firstn_all2 by lia. rewrite firstn_app, firstn_all2 by (rewrite le_bytes_length; lia).
    destruct (cut_read g p a cc (4 * length k) (firstn (told - length (enc_rsn 4 h) - length (le_bytes 2 (N.of_nat (4 * length k))))
      (concat (map (fun p : bytes => p) k) ++ opt_enc enc_cipher m))) as [n E].
    + repeat split; cbn; auto.
    + destruct LF as (A & B & _). repeat split; auto.
    + exact NL.
    + destruct LF as (_ & _ & C). cbn in C. rewrite KL in C. lia.
    + rewrite firstn_length, le_bytes_length. lia.
    + exists (received h), n. split; [exact E|]. apply received_shows.
Qed.

(** witness: the end of the PMKID reads as an SSID element; another one hides what is behind it *)
Definition spill_view (pmkid : bytes) : RsnView := mkView (Some Cs_Ccmp128) (Some [Cs_Ccmp128]) (Some [Ak_Sae]) (Some 0%N) (Some [pmkid]) None.
Definition spill_rsn (pmkid : bytes) : Rsn := mkRsn (Some Cs_Ccmp128) (Some (Arr [Cs_Ccmp128])) (Some (Arr [Ak_Sae])) (Some 0%N) (Some (Arr [pmkid])) None.
Definition ssid_pmkid : bytes := [7; 7; 7; 7; 0; 10; 70; 114; 101; 101; 32; 87; 73; 70; 73; 33]%N.
Definition hiding_pmkid : bytes := [7; 7; 7; 7; 221; 16; 0; 0; 0; 0; 0; 0; 0; 0; 0; 0]%N.
Lemma spill_ok pmkid : ok_pmkid pmkid -> let v := spill_view pmkid in shows (spill_rsn pmkid) v /\ ok_view v /\ gap_free v /\ pmkid_count v = 1.
Proof.
  intros O. cbn zeta. split; [repeat split|]. split; [|split; [apply gap_free_eq; reflexivity|reflexivity]].
  repeat split; cbn; auto; repeat constructor; auto; lia.
Qed.
Lemma pmkid_spill_found : exists p x v block n, ok_pmkid p /\ v_pmkids v = Some [p] /\ shows x v /\ ok_view v /\ gap_free v /\ pmkid_count v = 1 /\
  wr_chain (chain_of (Typed (elem_of RsnElement x)) []) (repeat 0%N 64) = Ok (block, n) /\
  get_first_element SSIDElement (firstn n block) = Ok (Some [70; 114; 101; 101; 32; 87; 73; 70; 73; 33]%N).
Proof.
  exists ssid_pmkid, (spill_rsn ssid_pmkid), (spill_view ssid_pmkid).
  assert (O : ok_pmkid ssid_pmkid) by (split; [reflexivity|repeat constructor]).
  destruct (spill_ok _ O) as (A & B & C & D).
  destruct cfg as [[] [] []]; (eexists; eexists; split; [exact O|]; split; [reflexivity|]; split; [exact A|]; split; [exact B|]; split; [exact C|]; split; [exact D|]; split; [vm_compute; reflexivity|vm_compute; reflexivity]).
Qed.
Lemma pmkid_spill_hides : exists p x v block n, ok_pmkid p /\ v_pmkids v = Some [p] /\ shows x v /\ ok_view v /\ gap_free v /\ pmkid_count v = 1 /\
  wr_chain (chain_of (Typed (elem_of RsnElement x)) [Typed (elem_of SSIDElement [84; 101; 115; 116]%N)]) (repeat 0%N 64) = Ok (block, n) /\
  get_first_element SSIDElement (firstn n block) = Ok None.
Proof.
  exists hiding_pmkid, (spill_rsn hiding_pmkid), (spill_view hiding_pmkid).
  assert (O : ok_pmkid hiding_pmkid) by (split; [reflexivity|repeat constructor]).
  destruct (spill_ok _ O) as (A & B & C & D).
  destruct cfg as [[] [] []]; (eexists; eexists; split; [exact O|]; split; [reflexivity|]; split; [exact A|]; split; [exact B|]; split; [exact C|]; split; [exact D|]; split; [vm_compute; reflexivity|vm_compute; reflexivity]).
Qed.
End Facts.
