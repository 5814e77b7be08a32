(** Proofs about the element types of ElementTypes.v. *)
From Verif Require Import Base BaseFacts Bits Layouts BitsFacts Enums EnumsFacts Utf8 Elements SpecElements ElementsFacts ElementTypes SpecElementTypes CommonFacts.

(** ** Tactics for sequences of reads *)
Create HintDb np.
Create HintDb sz.
Create HintDb ib.
Ltac bound := first [ assumption | eapply N.lt_le_trans; [eassumption | let H := fresh in vm_compute; intros H; discriminate H] ].
Lemma ne_bytes_ne {cfg : Cfg} n v : n <> 0 -> ne_bytes n v <> [].
Proof. intros H E. apply (f_equal (@length N)) in E. rewrite ne_bytes_length in E. auto. Qed.
Lemma nonempty_length {A} (l : list A) : 0 < length l -> l <> [].
Proof. intros H ->. cbn in H. lia. Qed.
Ltac nonempty := first [ discriminate | apply ne_bytes_ne; discriminate | apply nonempty_length; rewrite ?le_bytes_length, ?be_bytes_length; lia ].
Ltac rstep_R A r from off bs rest R :=
  rewrite (gread_step r from off bs _ rest A R) by nonempty; cbn [rbind]; apply At_step in A.
(** any other reader: from a [Reads] hypothesis *)
Ltac evar_reads A r from off bs rest :=
  match goal with R : Reads r bs _ |- _ => rstep_R A r from off bs rest R end.
Ltac rstep A :=
  match type of A with
  | At ?from ?off (?bs ++ ?rest) =>
      match goal with
      | |- context [gread ?r from off] =>
          match r with
          | rd_u8 => match bs with [?v] => rstep_R A r from off bs rest (rd_u8_R v) end
          | rd_le ?n => match bs with le_bytes _ ?v =>
              let R := fresh in assert (R : Reads (rd_le n) bs v) by (apply rd_le_R; bound);
              rstep_R A r from off bs rest R; clear R end
          | rd_be ?n => match bs with be_bytes _ ?v =>
              let R := fresh in assert (R : Reads (rd_be n) bs v) by (apply rd_be_R; bound);
              rstep_R A r from off bs rest R; clear R end
          | rd_ne ?n => match bs with ne_bytes _ ?v =>
              let R := fresh in assert (R : Reads (rd_ne n) bs v) by (apply rd_ne_R; bound);
              rstep_R A r from off bs rest R; clear R end
          | rd_bytes ?n =>
              let R := fresh in
              assert (R : Reads (rd_bytes n) bs bs)
                by (apply rd_bytes_R; rewrite ?le_bytes_length, ?be_bytes_length, ?ne_bytes_length; lia);
              rstep_R A r from off bs rest R; clear R
          | _ => let R := fresh in
              evar_reads A r from off bs rest
          end
      end
  end.
(** final step: [A : At from off rest], goal [Ok (x, off) = Ok (x, length bs)] *)
Ltac rdone A :=
  let L := fresh in destruct A as [_ L]; rewrite ?app_length in L; cbn [concat];
  do 2 f_equal; rewrite ?app_length; cbn [length] in *; rewrite ?le_bytes_length, ?be_bytes_length, ?ne_bytes_length in *; lia.

(** sizes of the primitives *)
Section Sizes.
Context {cfg : Cfg}.
Lemma rd_u8_size from x n : rd_u8 from = Ok (x, n) -> n = 1.
Proof. destruct from; cbn; [discriminate|]. now intros [= _ <-]. Qed.
Lemma rd_le_size k from x n : rd_le k from = Ok (x, n) -> n = k.
Proof. unfold rd_le. destruct (_ <? _); [discriminate|]. now intros [= _ <-]. Qed.
Lemma rd_be_size k from x n : rd_be k from = Ok (x, n) -> n = k.
Proof. unfold rd_be. destruct (_ <? _); [discriminate|]. now intros [= _ <-]. Qed.
Lemma rd_ne_size k from x n : rd_ne k from = Ok (x, n) -> n = k.
Proof. unfold rd_ne. destruct native_le; [apply rd_le_size|apply rd_be_size]. Qed.
Lemma rd_bytes_size k from x n : rd_bytes k from = Ok (x, n) -> n = k.
Proof. unfold rd_bytes. destruct (_ <? _); [discriminate|]. now intros [= _ <-]. Qed.
Lemma gread_size {A} (r : reader A) k from off x off' : (forall f y n, r f = Ok (y, n) -> n = k) ->
  gread r from off = Ok (x, off') -> off' = off + k.
Proof. intros S E. apply gread_inv in E as (_ & n & E & ->). now rewrite (S _ _ _ E). Qed.
End Sizes.
Ltac np_lemma := first [apply rd_u8_NP | apply rd_le_NP | apply rd_be_NP | apply rd_ne_NP | apply rd_bytes_NP | assumption | solve [eauto with np]].
(** goals [_ <> Panic] for sequences of reads *)
Ltac np :=
  repeat match goal with
  | |- context [gread ?r ?from ?off] =>
      let H := fresh in
      assert (H : gread r from off <> Panic) by (apply gread_no_panic; np_lemma);
      destruct (gread r from off) as [[? ?]| |]; cbn [rbind]; try discriminate; try congruence; clear H
  | |- context [pread ?r ?from ?off] =>
      let H := fresh in
      assert (H : pread r from off <> Panic) by (apply pread_no_panic; np_lemma);
      destruct (pread r from off) as [?| |]; cbn [rbind]; try discriminate; try congruence; clear H
  end.
Ltac size_lemma := first [apply rd_u8_size | apply rd_le_size | apply rd_be_size | apply rd_ne_size | apply rd_bytes_size | eassumption | solve [eauto with sz]].
Ltac ib_lemma := first [apply rd_u8_IB | apply rd_le_IB | apply rd_be_IB | apply rd_ne_IB | apply rd_bytes_IB | assumption | solve [eauto with ib]].
(** Take a successful sequence of reads apart: for every step the new offset and, where known,
    that it is inside the input. *)
Ltac rinv E :=
  repeat match type of E with
  | context [gread ?r ?from ?off] =>
      let H := fresh "G" in
      destruct (gread r from off) as [[? ?]| |] eqn:H; cbn [rbind] in E; try discriminate E;
      try (let B := fresh "B" in assert (B := H); apply gread_bounds in B; [|ib_lemma]);
      try (let S := fresh "S" in assert (S := H); eapply gread_size in S; [|size_lemma])
  end.

(** ** splitting byte strings *)
Lemma split_le n bs : wf_bytes bs -> n <= length bs -> exists v rest,
  (v < 256 ^ N.of_nat n)%N /\ bs = le_bytes n v ++ rest /\ wf_bytes rest /\ length rest = length bs - n.
Proof.
  intros W L. exists (le_val (firstn n bs)), (skipn n bs).
  assert (Ln : length (firstn n bs) = n) by (rewrite firstn_length; lia).
  split; [|split; [|split]].
  - rewrite <- Ln at 2. apply le_val_bound, wf_firstn, W.
  - rewrite <- Ln at 1. rewrite le_bytes_val by (apply wf_firstn, W). now rewrite firstn_skipn.
  - apply wf_skipn, W.
  - apply skipn_length.
Qed.
Lemma split_be n bs : wf_bytes bs -> n <= length bs -> exists v rest,
  (v < 256 ^ N.of_nat n)%N /\ bs = be_bytes n v ++ rest /\ wf_bytes rest /\ length rest = length bs - n.
Proof.
  intros W L. exists (be_val (firstn n bs)), (skipn n bs).
  assert (Ln : length (firstn n bs) = n) by (rewrite firstn_length; lia).
  split; [|split; [|split]].
  - rewrite <- Ln at 2. apply be_val_bound, wf_firstn, W.
  - rewrite <- Ln at 1. rewrite be_bytes_val by (apply wf_firstn, W). now rewrite firstn_skipn.
  - apply wf_skipn, W.
  - apply skipn_length.
Qed.
Lemma split_ne {cfg : Cfg} n bs : wf_bytes bs -> n <= length bs -> exists v rest,
  (v < 256 ^ N.of_nat n)%N /\ bs = ne_bytes n v ++ rest /\ wf_bytes rest /\ length rest = length bs - n.
Proof. unfold ne_bytes. destruct native_le; [apply split_le|apply split_be]. Qed.
Lemma split_u8 bs : wf_bytes bs -> 1 <= length bs -> exists v rest,
  (v < 256)%N /\ bs = [v] ++ rest /\ wf_bytes rest /\ length rest = length bs - 1.
Proof.
  intros W L. destruct bs as [|b bs]; [cbn in L; lia|]. apply wf_bytes_cons in W as [Wb W].
  exists b, bs. cbn. repeat split; auto; lia.
Qed.
Lemma split_bytes n bs : wf_bytes bs -> n <= length bs -> exists v rest,
  length v = n /\ wf_bytes v /\ bs = v ++ rest /\ wf_bytes rest /\ length rest = length bs - n.
Proof.
  intros W L. exists (firstn n bs), (skipn n bs). repeat split.
  - rewrite firstn_length. lia.
  - apply wf_firstn, W.
  - now rewrite firstn_skipn.
  - apply wf_skipn, W.
  - apply skipn_length.
Qed.
Lemma length0 {A} (l : list A) : length l = 0 -> l = [].
Proof. now destruct l. Qed.

(** ** Fixed layouts *)
Section Fixed.
Context {cfg : Cfg}.
Lemma fixed_intro {A} (t : ElementType A A) id size (ok : A -> Prop) canon enc :
  et_id t = id -> (forall w, et_measure t w = size) ->
  (forall w, ok w -> wf_bytes (enc w) /\ length (enc w) = size /\ canon (enc w)) ->
  (forall w, ok w -> Writes (et_write t w) (enc w)) ->
  (forall w, ok w -> Reads (et_read t) (enc w) w) ->
  (forall bs, wf_bytes bs -> length bs = size -> canon bs -> exists w, ok w /\ enc w = bs) ->
  NoPanic (et_read t) -> (forall bs w n, et_read t bs = Ok (w, n) -> size <= length bs) ->
  FixedLayout t id size ok canon enc.
Proof.
  intros I M E W R S P B. split; auto.
  - intros w O. destruct (E w O) as (? & ? & ?). auto 6.
  - intros bs L. destruct (et_read t bs) as [[w n]|e|] eqn:X; [|eauto|].
    + apply B in X. lia.
    + exfalso. eapply P, X.
Qed.
End Fixed.
(** [Writes (wseq ..) (a ++ b ++ c)] *)
Ltac writes_step := first
  [ apply wr_u8_small; assumption | apply wr_u8_W | apply wr_bytes_W
  | rewrite wr_ne_eq; apply wr_bytes_W ].
Ltac writes_seq :=
  eapply Writes_eq;
  [ apply wseq_W; repeat (constructor; [first [writes_step | eassumption]|]); constructor
  | cbn [concat]; rewrite ?app_nil_r; reflexivity ].
Ltac okdestruct H := hnf in H; unfold u8, u16, u32, u64, byte_array, canonical in H; decompose [and] H; clear H.

Ltac projs := cbn [bl_station_count bl_channel_utilization bl_capacity vc_info vc_mcs_nss vo_bandwidth vo_seg0 vo_seg1 vo_mcs
  mc_protocol mc_metric mc_congestion mc_sync mc_auth mc_formation mc_capability mcs_rx mcs_flags
  hc_info hc_ampdu hc_mcs hc_ext hc_txbf hc_asel ho_channel ho_info ho_mcs owe_bssid owe_ssid owe_band gtk_info gtk_key] in *.
Section Types.
Context {cfg : Cfg}.
Local Ltac lens := rewrite ?app_length, ?le_bytes_length, ?be_bytes_length, ?ne_bytes_length; cbn [length].
Local Ltac wf := repeat first [ assumption | apply le_bytes_wf | apply be_bytes_wf | apply ne_bytes_wf
  | apply wf_bytes_nil | apply wf_bytes_app; split | apply wf_bytes_cons; split ].

Lemma dsss_fixed : FixedLayout DSSSParameterSetElement (Id 3) 1 u8 any_bytes enc_dsss.
Proof.
  apply fixed_intro; cbn [DSSSParameterSetElement et_id et_measure et_write et_read]; auto.
  - unfold enc_dsss, u8. intros w O. repeat split. wf.
  - intros w O. apply pwrite0_W, wr_u8_small, O.
  - intros w O rest. unfold rd_dsss. rewrite pread0 by discriminate. reflexivity.
  - intros bs W L _. destruct (split_u8 bs) as (v & r & Hv & -> & _ & Lr); [auto|lia|].
    rewrite L in Lr. apply length0 in Lr. subst. exists v. auto.
  - intros from. unfold rd_dsss. np.
  - intros [|b bs] w n; cbn [length]; [|lia]. unfold rd_dsss, pread, gread. destruct (end_bad _ _); discriminate.
Qed.
Lemma ibss_fixed : FixedLayout IBSSParameterSetElement (Id 6) 2 u16 any_bytes enc_ibss.
Proof.
  apply fixed_intro; cbn [IBSSParameterSetElement et_id et_measure et_write et_read]; auto.
  - unfold enc_ibss. intros w O. repeat split. apply le_bytes_wf.
  - intros w O. apply pwrite0_W, wr_bytes_W.
  - intros w O rest. unfold rd_ibss. rewrite pread0 by discriminate. unfold enc_ibss. now rewrite (rd_le_R 2 w O).
  - intros bs W L _. destruct (split_le 2 bs) as (v & r & Hv & -> & _ & Lr); [auto|lia|].
    rewrite L in Lr. apply length0 in Lr. subst. exists v. rewrite app_nil_r. auto.
  - intros from. unfold rd_ibss. np.
  - intros bs w n. unfold rd_ibss, pread. destruct (gread (rd_le 2) bs 0) as [[x m]| |] eqn:G; cbn; try discriminate.
    intros _. pose proof (gread_size _ 2 _ _ _ _ (rd_le_size 2) G). apply gread_bounds in G; [lia|apply rd_le_IB].
Qed.
Lemma bss_load_fixed : FixedLayout BSSLoadElement (Id 11) 5 ok_bss_load any_bytes enc_bss_load.
Proof.
  apply fixed_intro; cbn [BSSLoadElement et_id et_measure et_write et_read]; auto.
  - intros w O. okdestruct O. repeat split. unfold enc_bss_load. wf.
  - intros w O. okdestruct O. unfold wr_bss_load, enc_bss_load. writes_seq.
  - intros [a b c] O rest. okdestruct O. projs. unfold enc_bss_load. cbn [bl_station_count bl_channel_utilization bl_capacity].
    unfold rd_bss_load. pose proof (At_start ((le_bytes 2 a ++ [b] ++ le_bytes 2 c) ++ rest)) as A. rewrite <- !app_assoc in *.
    rstep A. rstep A. rstep A. reflexivity.
  - intros bs W L _.
    destruct (split_le 2 bs) as (a & r & Ha & -> & Wr & Lr); [auto|lia|]. rewrite L in Lr.
    destruct (split_u8 r) as (b & r' & Hb & -> & Wr' & Lr'); [auto|lia|]. rewrite Lr in Lr'.
    destruct (split_le 2 r') as (c & r'' & Hc & -> & _ & Lr''); [auto|lia|]. rewrite Lr' in Lr''. apply length0 in Lr''. subst.
    exists (mkBSSLoad a b c). rewrite app_nil_r. repeat split; auto.
  - intros from. unfold rd_bss_load. np.
  - intros bs w n E. unfold rd_bss_load in E. rinv E. lia.
Qed.
Lemma enc_mcs_set_length x : ok_mcs_set x -> length (enc_mcs_set x) = 16.
Proof. intros ((L & _) & _). unfold enc_mcs_set. lens. lia. Qed.
Lemma enc_mcs_set_wf x : ok_mcs_set x -> wf_bytes (enc_mcs_set x).
Proof. intros ((_ & W) & _). unfold enc_mcs_set. wf; reflexivity. Qed.
Lemma wr_mcs_set_W x : ok_mcs_set x -> Writes (wr_mcs_set x) (enc_mcs_set x).
Proof.
  intros O. unfold wr_mcs_set, enc_mcs_set. eapply Writes_eq.
  { apply wseq_W. repeat (constructor; [apply wr_bytes_W|]). constructor. }
  cbn [concat]. rewrite app_nil_r. f_equal. destruct O as (_ & O). unfold u32 in O.
  change 8 with (4 + 4). remember (mcs_flags x) as f. clear Heqf.
  cbn [le_bytes Nat.add firstn app]. rewrite !N.div_div by discriminate.
  rewrite (N.div_small f (256 * 256 * 256 * 256)) by exact O.
  rewrite (N.div_small f (256 * 256 * 256 * 256 * 256)) by (eapply N.lt_trans; [exact O|reflexivity]).
  reflexivity.
Qed.
Lemma rd_mcs_set_R x : ok_mcs_set x -> Reads rd_mcs_set (enc_mcs_set x) x.
Proof.
  destruct x as [s f]. intros ((L & W) & F) rest. projs. unfold rd_mcs_set, enc_mcs_set. cbn [mcs_rx mcs_flags].
  pose proof (At_start ((s ++ le_bytes 4 f ++ [0; 0]%N) ++ rest)) as A. rewrite <- !app_assoc in *.
  rewrite (gread_step (rd_bytes 10) _ _ s s _ A) by (first [now apply rd_bytes_R | intros ->; discriminate]). cbn [rbind].
  apply At_step in A.
  rewrite (gread_step (rd_bytes 4) _ _ (le_bytes 4 f) (le_bytes 4 f) _ A) by (first [now apply rd_bytes_R; rewrite le_bytes_length | discriminate]). cbn [rbind].
  rewrite le_val_bytes_small by exact F. do 2 f_equal. lens. lia.
Qed.
Lemma rd_mcs_set_NP : NoPanic rd_mcs_set.
Proof. intros from. unfold rd_mcs_set. np. Qed.
Lemma rd_mcs_set_size from x n : rd_mcs_set from = Ok (x, n) -> n = 16.
Proof. unfold rd_mcs_set. intros E. rinv E. injection E as _ <-. lia. Qed.
Lemma split_mcs bs : wf_bytes bs -> 16 <= length bs -> firstn 2 (skipn 14 bs) = [0; 0]%N -> exists x rest,
  ok_mcs_set x /\ bs = enc_mcs_set x ++ rest /\ wf_bytes rest /\ length rest = length bs - 16.
Proof.
  intros W L Z.
  destruct (split_bytes 10 bs) as (s & r & Ls & Ws & -> & Wr & Lr); [auto|lia|].
  destruct (split_le 4 r) as (f & r' & Hf & -> & Wr' & Lr'); [auto|lia|].
  destruct (split_bytes 2 r') as (z & r'' & Lz & Wz & -> & Wr'' & Lr''); [auto|lia|].
  exists (mkMCS s f), r''. repeat split; auto; [|rewrite Lr'', Lr', Lr; lia].
  unfold enc_mcs_set. cbn [mcs_rx mcs_flags]. rewrite <- !app_assoc. do 2 f_equal.
  rewrite !app_assoc in Z. rewrite <- (app_assoc _ z) in Z. rewrite skipn_app_exact in Z by (rewrite app_length, le_bytes_length; lia).
  rewrite firstn_app_exact in Z by auto. now subst z.
Qed.
Hint Resolve rd_mcs_set_NP : np.
Hint Resolve rd_mcs_set_size : sz.
Lemma ht_cap_fixed : FixedLayout HTCapabilitiesElement (Id 45) 26 ok_ht_cap canon_ht_cap enc_ht_cap.
Proof.
  apply fixed_intro; cbn [HTCapabilitiesElement et_id et_measure et_write et_read]; auto.
  - intros [a b c d e f] O. unfold ok_ht_cap in O. cbn in O. destruct O as (Oa & Ob & Oc & Od & Oe & Of).
    pose proof (enc_mcs_set_length c Oc). unfold enc_ht_cap. cbn [hc_info hc_ampdu hc_mcs hc_ext hc_txbf hc_asel].
    split; [|split].
    + pose proof (enc_mcs_set_wf c Oc). wf.
    + lens. lia.
    + unfold canon_ht_cap, enc_mcs_set.
      replace (_ ++ _ ++ _) with ((le_bytes 2 a ++ [b] ++ mcs_rx c ++ le_bytes 4 (mcs_flags c)) ++ [0; 0]%N ++ le_bytes 2 d ++ le_bytes 4 e ++ [f])
        by now rewrite <- !app_assoc.
      rewrite skipn_app_exact; [reflexivity|]. destruct Oc as ((L & _) & _). cbn in L. lens. lia.
  - intros w O. destruct O as (Oa & Ob & Oc & Od & Oe & Of). pose proof (wr_mcs_set_W _ Oc) as Wm.
    eapply Writes_eq.
    { apply wseq_W. constructor; [apply wr_bytes_W|]. constructor; [apply wr_bytes_W|]. constructor; [exact Wm|].
      repeat (constructor; [apply wr_bytes_W|]). constructor. }
    cbn [concat]. rewrite app_nil_r. unfold enc_ht_cap. now rewrite !le_bytes_1.
  - intros [a b c d e f] O rest. unfold ok_ht_cap in O. cbn in O. destruct O as (Oa & Ob & Oc & Od & Oe & Of).
    unfold enc_ht_cap. cbn [hc_info hc_ampdu hc_mcs hc_ext hc_txbf hc_asel].
    unfold rd_ht_cap. pose proof (rd_mcs_set_R c Oc) as Rm. pose proof (enc_mcs_set_length c Oc) as Lm.
    rewrite <- (le_bytes_1 b) by auto. rewrite <- (le_bytes_1 f) by auto.
    pose proof (At_start ((le_bytes 2 a ++ le_bytes 1 b ++ enc_mcs_set c ++ le_bytes 2 d ++ le_bytes 4 e ++ le_bytes 1 f) ++ rest)) as A. rewrite <- !app_assoc in *.
    unfold u8, u16, u32 in *.
    rstep A. rstep A. rewrite (gread_step rd_mcs_set _ _ _ _ _ A Rm) by (intros X; rewrite X in Lm; discriminate). cbn [rbind]. apply At_step in A.
    rstep A. rstep A. rstep A. do 2 f_equal. lens. lia.
  - intros bs W L C. unfold canon_ht_cap in C.
    destruct (split_le 2 bs) as (a & r1 & Ha & -> & W1 & L1); [auto|lia|].
    destruct (split_u8 r1) as (b & r2 & Hb & -> & W2 & L2); [auto|lia|].
    destruct (split_mcs r2) as (c & r3 & Hc & -> & W3 & L3); [auto|lia| |].
    { rewrite app_assoc in C. replace 17 with (length (le_bytes 2 a ++ [b]) + 14) in C by reflexivity.
      rewrite <- skipn_skipn_add in C. now rewrite skipn_app_exact in C by reflexivity. }
    destruct (split_le 2 r3) as (d & r4 & Hd & -> & W4 & L4); [auto|lia|].
    destruct (split_le 4 r4) as (e & r5 & He & -> & W5 & L5); [auto|lia|].
    destruct (split_u8 r5) as (f & r6 & Hf & -> & W6 & L6); [auto|lia|].
    assert (r6 = []) by (apply length0; lia). subst. exists (mkHTCap a b c d e f). repeat split; auto; apply Hc.
  - intros from. unfold rd_ht_cap. np.
  - intros bs w n E. unfold rd_ht_cap in E. rinv E. lia.
Qed.
Lemma vht_cap_fixed : FixedLayout VHTCapabilitiesElement (Id 191) 12 ok_vht_cap any_bytes enc_vht_cap.
Proof.
  apply fixed_intro; cbn [VHTCapabilitiesElement et_id et_measure et_write et_read]; auto.
  - intros w O. repeat split. unfold enc_vht_cap. wf.
  - intros w O. unfold wr_vht_cap, enc_vht_cap. writes_seq.
  - intros [a b] O rest. okdestruct O. projs. unfold enc_vht_cap. cbn [vc_info vc_mcs_nss].
    unfold rd_vht_cap. pose proof (At_start ((le_bytes 4 a ++ le_bytes 8 b) ++ rest)) as A. rewrite <- !app_assoc in *.
    rstep A. rstep A. reflexivity.
  - intros bs W L _.
    destruct (split_le 4 bs) as (a & r & Ha & -> & Wr & Lr); [auto|lia|]. rewrite L in Lr.
    destruct (split_le 8 r) as (b & r' & Hb & -> & Wr' & Lr'); [auto|lia|]. rewrite Lr in Lr'. apply length0 in Lr'. subst.
    exists (mkVHTCap a b). rewrite app_nil_r. repeat split; auto.
  - intros from. unfold rd_vht_cap. np.
  - intros bs w n E. unfold rd_vht_cap in E. rinv E. lia.
Qed.
Lemma vht_op_fixed : FixedLayout VHTOperationElement (Id 192) 5 ok_vht_op any_bytes enc_vht_op.
Proof.
  apply fixed_intro; cbn [VHTOperationElement et_id et_measure et_write et_read]; auto.
  - intros w O. okdestruct O. repeat split. unfold enc_vht_op. wf.
  - intros w O. okdestruct O. unfold wr_vht_op, enc_vht_op. writes_seq.
  - intros [a b c d] O rest. okdestruct O. projs. unfold enc_vht_op. cbn [vo_bandwidth vo_seg0 vo_seg1 vo_mcs].
    unfold rd_vht_op. remember (channel_width_into_bits a) as a'.
    pose proof (At_start (([a'] ++ [b] ++ [c] ++ le_bytes 2 d) ++ rest)) as A. rewrite <- !app_assoc in *.
    rstep A. rstep A. rstep A. rstep A. subst a'. match goal with H : channel_width_from_bits _ = _ |- _ => rewrite H end. reflexivity.
  - intros bs W L _.
    destruct (split_u8 bs) as (a & r & Ha & -> & Wr & Lr); [auto|lia|]. rewrite L in Lr.
    destruct (split_u8 r) as (b & r2 & Hb & -> & Wr2 & Lr2); [auto|lia|]. rewrite Lr in Lr2.
    destruct (split_u8 r2) as (c & r3 & Hc & -> & Wr3 & Lr3); [auto|lia|]. rewrite Lr2 in Lr3.
    destruct (split_le 2 r3) as (d & r4 & Hd & -> & _ & Lr4); [auto|lia|]. rewrite Lr3 in Lr4. apply length0 in Lr4. subst.
    exists (mkVHTOp (channel_width_from_bits a) b c d). unfold enc_vht_op, ok_vht_op, canonical.
    cbn [vo_bandwidth vo_seg0 vo_seg1 vo_mcs]. rewrite channel_width_into_from, app_nil_r. repeat split; auto.
  - intros from. unfold rd_vht_op. np.
  - intros bs w n E. unfold rd_vht_op in E. rinv E. lia.
Qed.
Lemma mesh_conf_fixed : FixedLayout MeshConfigurationElement (Id 113) 7 ok_mesh_conf any_bytes enc_mesh_conf.
Proof.
  apply fixed_intro; cbn [MeshConfigurationElement et_id et_measure et_write et_read]; auto.
  - intros w O. okdestruct O. repeat split. unfold enc_mesh_conf. wf.
  - intros w O. okdestruct O. unfold wr_mesh_conf, enc_mesh_conf. writes_seq.
  - intros [a b c d e f g] O rest. okdestruct O. projs. unfold enc_mesh_conf.
    cbn [mc_protocol mc_metric mc_congestion mc_sync mc_auth mc_formation mc_capability].
    unfold rd_mesh_conf.
    match goal with |- context [rbind (gread _ ?f 0)] => pose proof (At_start f) as A end. rewrite <- !app_assoc in *.
    rstep A. rstep A. rstep A. rstep A. rstep A. rstep A. rstep A.
    repeat match goal with H : ?f (?g ?x) = ?x |- _ => rewrite H; clear H end. reflexivity.
  - intros bs W L _.
    destruct (split_u8 bs) as (a & r & Ha & -> & Wr & Lr); [auto|lia|]. rewrite L in Lr.
    destruct (split_u8 r) as (b & r2 & Hb & -> & Wr2 & Lr2); [auto|lia|]. rewrite Lr in Lr2.
    destruct (split_u8 r2) as (c & r3 & Hc & -> & Wr3 & Lr3); [auto|lia|]. rewrite Lr2 in Lr3.
    destruct (split_u8 r3) as (d & r4 & Hd & -> & Wr4 & Lr4); [auto|lia|]. rewrite Lr3 in Lr4.
    destruct (split_u8 r4) as (e & r5 & He & -> & Wr5 & Lr5); [auto|lia|]. rewrite Lr4 in Lr5.
    destruct (split_u8 r5) as (f & r6 & Hf & -> & Wr6 & Lr6); [auto|lia|]. rewrite Lr5 in Lr6.
    destruct (split_u8 r6) as (g & r7 & Hg & -> & Wr7 & Lr7); [auto|lia|]. rewrite Lr6 in Lr7. apply length0 in Lr7. subst.
    exists (mkMeshConf (mesh_path_proto_from_bits a) (mesh_path_metric_from_bits b)
        (mesh_congestion_from_bits c) (mesh_sync_from_bits d) (mesh_auth_from_bits e) f g). unfold enc_mesh_conf, ok_mesh_conf, canonical.
    cbn [mc_protocol mc_metric mc_congestion mc_sync mc_auth mc_formation mc_capability].
    rewrite mesh_path_proto_into_from, mesh_path_metric_into_from, mesh_congestion_into_from, mesh_sync_into_from, mesh_auth_into_from.
    repeat split; auto.
  - intros from. unfold rd_mesh_conf. np.
  - intros bs w n E. unfold rd_mesh_conf in E. rinv E. lia.
Qed.
End Types.
