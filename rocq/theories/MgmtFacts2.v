(** Proofs about the management frame bodies. *)
From Verif Require Import Base BaseFacts Bits Layouts BitsFacts Enums EnumsFacts Common SpecBase SpecCommon CommonFacts Crc CrcFacts
  Elements SpecElements ElementsFacts ElementTypes SpecElementTypes ElementTypesFacts StepsFacts Mgmt SpecMgmt MgmtFacts.

Local Ltac lens := rewrite ?app_length, ?le_bytes_length, ?be_bytes_length, ?ne_bytes_length; cbn [length].
Local Ltac start A := match goal with |- context [gread _ ?x 0] => pose proof (At_start x) as A end; rewrite <- ?app_assoc in *.

Local Ltac fixed_ws := repeat (constructor; [apply wr_bytes_W|]); constructor.

Section Facts.
Context {cfg : Cfg}.

Lemma body_W ws bss c es fixed : Forall2 Writes ws bss -> concat bss = fixed -> Writes c es ->
  Writes (wseq (ws ++ [c])) (fixed ++ es).
Proof.
  intros F <- W. eapply Writes_eq; [apply wseq_W; apply Forall2_app; [exact F|constructor; [exact W|constructor]]|].
  rewrite concat_app. cbn [concat]. now rewrite app_nil_r.
Qed.
Lemma body_T ws bss c es fixed : Forall2 Writes ws bss -> concat bss = fixed -> WritesT c es -> es <> [] ->
  WritesT (wseq (ws ++ [c])) (fixed ++ es).
Proof. intros F <- W N. now apply wseq_T. Qed.
Lemma WritesT_ext w w' bs : (forall buf, w' buf = w buf) -> WritesT w bs -> WritesT w' bs.
Proof. intros E [W T]. split; [now apply (Writes_ext w)|]. intros buf L. rewrite E. now apply T. Qed.

Lemma gread_elements from off es : At from off es -> end_ok es ->
  gread rd_elements from off = Ok (es, off + length es).
Proof. intros A K. now rewrite (gread_at _ _ _ _ A K). Qed.
Lemma gread_elements_inv from off es x o : At from off es -> gread rd_elements from off = Ok (x, o) -> x = es.
Proof.
  intros [A _] E. apply gread_inv in E as (_ & n & E & _). rewrite A in E. unfold rd_elements in E. now injection E as <- _.
Qed.
Lemma slice_from_at from off q : At from off q -> @slice_from serr from off = Ok q.
Proof.
  intros [A L]. unfold slice_from. destruct (Nat.leb_spec off (length from)); [now rewrite A|lia].
Qed.
Lemma rd_elements_NP : NoPanic rd_elements.
Proof. intros from. discriminate. Qed.
Lemma rd_elements_IB : InBounds rd_elements.
Proof. intros from x n E. unfold rd_elements in E. injection E as _ <-. lia. Qed.
Hint Resolve rd_elements_NP : np.
Hint Resolve rd_elements_IB : ib.
Lemma c_bytes_like bs : Writes (wr_elements bs) bs.
Proof. apply pwrite0_W, wr_bytes_W. Qed.
Lemma c_read_elements_W bs : Writes (c_write (c_read_elements bs)) bs.
Proof. apply c_bytes_like. Qed.
Lemma c_read_elements_T bs : bs <> [] -> WritesT (c_write (c_read_elements bs)) bs.
Proof. intros N. apply pwrite0_T; [apply wr_bytes_T|exact N]. Qed.
Lemma c_bytes_T bs : WritesT (c_write (c_bytes bs)) bs.
Proof. apply wr_bytes_T. Qed.
Lemma c_empty_T : WritesT (c_write c_empty) [].
Proof.
  split; [split|]; intros buf; [left|intros _|intros _]; cbn [app length skipn c_write c_empty]; auto.
  split; [lia|reflexivity].
Qed.

(** ** Beacon and probe response *)
Lemma beacon_like_rt s n : mgmt_subtype_into_bits s = n -> (n < 16)%N -> mgmt_subtype_from_bits n = s ->
  MgmtRoundTrip (beacon_like s) n ok_beacon fixed_beacon bb_elements with_beacon False.
Proof.
  intros A B C. apply mgmt_round_trip; try assumption.
  - intros w _. unfold fixed_beacon. rewrite !wf_bytes_app. repeat split; apply le_bytes_wf.
  - intros [].
  - intros w es _ W. eapply (body_W [_; _; _]); [fixed_ws|cbn [concat]; now rewrite app_nil_r|exact W].
  - intros w es _ W N. eapply (body_T [_; _; _]); [fixed_ws|cbn [concat]; now rewrite app_nil_r|exact W|exact N].
  - intros w es (H1 & H2 & H3) We [[]|K]. eexists. cbn [bt_read beacon_like]. unfold rd_beacon, fixed_beacon, u64, u16 in *.
    start P. rstep P. rstep P. rstep P. rewrite (gread_elements _ _ _ P K). cbn [rbind]. reflexivity.
Qed.
Lemma rd_beacon_inv body r n : wf_bytes body -> rd_beacon body = Ok (r, n) -> True ->
  ok_beacon r /\ body = fixed_beacon r ++ bb_elements r.
Proof.
  intros W E _. assert (L : 12 <= length body) by (unfold rd_beacon in E; rinv E; lia). revert E.
  destruct (split_le 8 body W) as (a & r1 & Ha & -> & W1 & L1); [lia|].
  destruct (split_le 2 r1 W1) as (b & r2 & Hb & -> & W2 & L2); [lia|].
  destruct (split_le 2 r2 W2) as (c & r3 & Hc & -> & W3 & L3); [lens; lia|].
  unfold rd_beacon. start P. rstep P. rstep P. rstep P. intros E.
  destruct (gread rd_elements _ _) as [[x o]| |] eqn:G; try discriminate. cbn [rbind] in E. injection E as <- <-.
  apply (gread_elements_inv _ _ _ _ _ P) in G as ->.
  unfold ok_beacon, fixed_beacon, u64, u16. cbn [bb_timestamp bb_interval bb_capabilities bb_elements].
  split; [auto|]. now rewrite <- !app_assoc.
Qed.
Lemma rd_beacon_NP : NoPanic rd_beacon.
Proof. intros from. unfold rd_beacon. np. Qed.
Lemma rd_beacon_IB : InBounds rd_beacon.
Proof. intros from x n E. unfold rd_beacon in E. rinv E. injection E as _ <-. lia. Qed.

(** ** Authentication *)
Lemma auth_rt : MgmtRoundTrip Authentication 11 ok_auth fixed_auth au_elements with_auth False.
Proof.
  apply mgmt_round_trip; try reflexivity.
  - intros w _. unfold fixed_auth. rewrite !wf_bytes_app. repeat split; apply le_bytes_wf.
  - intros [].
  - intros w es _ W. eapply (body_W [_; _; _]); [fixed_ws|cbn [concat]; now rewrite app_nil_r|exact W].
  - intros w es _ W N. eapply (body_T [_; _; _]); [fixed_ws|cbn [concat]; now rewrite app_nil_r|exact W|exact N].
  - intros w es (C1 & H1 & H2 & C3 & H3) We [[]|K]. eexists. cbn [bt_read Authentication]. unfold rd_auth, fixed_auth, u16 in *.
    start P. rstep P. rstep P. rstep P. rewrite (gread_elements _ _ _ P K). cbn [rbind].
    rewrite C1, C3. reflexivity.
Qed.
Lemma rd_auth_inv body r n : wf_bytes body -> rd_auth body = Ok (r, n) -> True ->
  ok_auth r /\ body = fixed_auth r ++ au_elements r.
Proof.
  intros W E _. assert (L : 6 <= length body) by (unfold rd_auth in E; rinv E; lia). revert E.
  destruct (split_le 2 body W) as (a & r1 & Ha & -> & W1 & L1); [lia|].
  destruct (split_le 2 r1 W1) as (b & r2 & Hb & -> & W2 & L2); [lia|].
  destruct (split_le 2 r2 W2) as (c & r3 & Hc & -> & W3 & L3); [lens; lia|].
  unfold rd_auth. start P. rstep P. rstep P. rstep P. intros E.
  destruct (gread rd_elements _ _) as [[x o]| |] eqn:G; try discriminate. cbn [rbind] in E. injection E as <- <-.
  apply (gread_elements_inv _ _ _ _ _ P) in G as ->.
  unfold ok_auth, fixed_auth, u16. cbn [au_algorithm au_sequence au_status au_elements].
  rewrite !auth_algo_into_from, !status_into_from. split; [auto 6|]. now rewrite <- !app_assoc.
Qed.
Lemma rd_auth_NP : NoPanic rd_auth.
Proof. intros from. unfold rd_auth. np. Qed.
Lemma rd_auth_IB : InBounds rd_auth.
Proof. intros from x n E. unfold rd_auth in E. rinv E. injection E as _ <-. lia. Qed.

(** ** Association *)
Lemma assoc_req_rt : MgmtRoundTrip AssociationRequest 0 ok_assoc_req fixed_assoc_req aq_elements with_assoc_req False.
Proof.
  apply mgmt_round_trip; try reflexivity.
  - intros w _. unfold fixed_assoc_req. rewrite !wf_bytes_app. repeat split; apply le_bytes_wf.
  - intros [].
  - intros w es _ W. eapply (body_W [_; _]); [fixed_ws|cbn [concat]; now rewrite app_nil_r|exact W].
  - intros w es _ W N. eapply (body_T [_; _]); [fixed_ws|cbn [concat]; now rewrite app_nil_r|exact W|exact N].
  - intros w es (H1 & H2) We [[]|K]. eexists. cbn [bt_read AssociationRequest]. unfold rd_assoc_req, fixed_assoc_req, u16 in *.
    start P. rstep P. rstep P. rewrite (gread_elements _ _ _ P K). cbn [rbind]. reflexivity.
Qed.
Lemma rd_assoc_req_inv body r n : wf_bytes body -> rd_assoc_req body = Ok (r, n) -> True ->
  ok_assoc_req r /\ body = fixed_assoc_req r ++ aq_elements r.
Proof.
  intros W E _. assert (L : 4 <= length body) by (unfold rd_assoc_req in E; rinv E; lia). revert E.
  destruct (split_le 2 body W) as (a & r1 & Ha & -> & W1 & L1); [lia|].
  destruct (split_le 2 r1 W1) as (b & r2 & Hb & -> & W2 & L2); [lia|].
  unfold rd_assoc_req. start P. rstep P. rstep P. intros E.
  destruct (gread rd_elements _ _) as [[x o]| |] eqn:G; try discriminate. cbn [rbind] in E. injection E as <- <-.
  apply (gread_elements_inv _ _ _ _ _ P) in G as ->.
  unfold ok_assoc_req, fixed_assoc_req, u16. cbn [aq_capabilities aq_listen_interval aq_elements].
  split; [auto|]. now rewrite <- !app_assoc.
Qed.
Lemma rd_assoc_req_NP : NoPanic rd_assoc_req.
Proof. intros from. unfold rd_assoc_req. np. Qed.
Lemma rd_assoc_req_IB : InBounds rd_assoc_req.
Proof. intros from x n E. unfold rd_assoc_req in E. rinv E. injection E as _ <-. lia. Qed.

Lemma aid_field_keep a : ok_aid a -> aid_new_checked a = Some a.
Proof.
  intros H. unfold ok_aid in H. rewrite aid_checked_cases.
  assert (M : (a mod 16384 = a - 49152)%N) by lia. rewrite M.
  replace ((1 <=? a - 49152) && (a - 49152 <=? 2007))%N with true by lia. f_equal. lia.
Qed.
Lemma aid_checked_ok n a : aid_new_checked n = Some a -> ok_aid a.
Proof.
  rewrite aid_checked_cases. unfold ok_aid. generalize (n mod 16384)%N. intros m.
  destruct (N.leb_spec 1 m); cbn [andb]; [|discriminate]. destruct (N.leb_spec m 2007); [|discriminate].
  intros E. assert (X : (a = 49152 + m)%N) by congruence. lia.
Qed.
Lemma aid_checked_same n a : (n < 65536)%N -> (49152 <= n)%N -> aid_new_checked n = Some a -> a = n.
Proof.
  intros H L. rewrite aid_checked_cases. assert (M : (n mod 16384 = n - 49152)%N) by lia. rewrite M.
  destruct (_ && _); [|discriminate]. intros E. assert (X : (a = 49152 + (n - 49152))%N) by congruence. lia.
Qed.
Lemma ok_aid_u16 a : ok_aid a -> (a < 65536)%N.
Proof. unfold ok_aid. lia. Qed.
Lemma assoc_resp_rt : MgmtRoundTrip AssociationResponse 1 ok_assoc_resp fixed_assoc_resp ar_elements with_assoc_resp False.
Proof.
  apply mgmt_round_trip; try reflexivity.
  - intros w _. unfold fixed_assoc_resp. rewrite !wf_bytes_app. repeat split; apply le_bytes_wf.
  - intros [].
  - intros w es _ W. eapply (body_W [_; _; _]); [fixed_ws|cbn [concat]; now rewrite app_nil_r|exact W].
  - intros w es _ W N. eapply (body_T [_; _; _]); [fixed_ws|cbn [concat]; now rewrite app_nil_r|exact W|exact N].
  - intros w es (H1 & C2 & H2 & H3) We [[]|K]. eexists. cbn [bt_read AssociationResponse]. unfold rd_assoc_resp, fixed_assoc_resp, u16 in *.
    set (aid := match ar_aid w with Some a => a | None => 0%N end).
    assert (Ha : (aid < 65536)%N) by (unfold aid; destruct (ar_aid w); [now apply ok_aid_u16|lia]).
    assert (Ea : (if (aid =? 0)%N then Ok None
          else match aid_new_checked aid with Some a => Ok (Some a) | None => Err BadInput end) = @Ok serr _ (ar_aid w)).
    { unfold aid. destruct (ar_aid w) as [a|]; [|reflexivity]. rewrite (aid_field_keep a H3).
      unfold ok_aid in H3. destruct (N.eqb_spec a 0); [lia|reflexivity]. }
    start P. rstep P. rstep P. rstep P.
    match goal with |- rbind ?m ?k = _ => replace m with (@Ok serr _ (ar_aid w)) by (symmetry; exact Ea) end. cbn [rbind].
    rewrite (gread_elements _ _ _ P K). cbn [rbind]. rewrite C2. reflexivity.
Qed.
Lemma aid_field_at a b c rest : (c < 65536)%N -> length a = 2 -> length b = 2 ->
  aid_field (a ++ b ++ le_bytes 2 c ++ rest) = c.
Proof.
  intros Hc La Lb. unfold aid_field. rewrite app_assoc, skipn_app_exact by (rewrite app_length; lia).
  rewrite firstn_app_exact by reflexivity. now apply le_val_bytes_small.
Qed.
Lemma rd_assoc_resp_inv body r n : wf_bytes body -> rd_assoc_resp body = Ok (r, n) -> canon_assoc_resp body ->
  ok_assoc_resp r /\ body = fixed_assoc_resp r ++ ar_elements r.
Proof.
  intros W E. assert (L : 6 <= length body).
  { unfold rd_assoc_resp in E. destruct (gread (rd_le 2) body 0) as [[a o]| |] eqn:G1; try discriminate. cbn [rbind] in E.
    destruct (gread (rd_le 2) body o) as [[b o2]| |] eqn:G2; try discriminate. cbn [rbind] in E.
    destruct (gread (rd_le 2) body o2) as [[c o3]| |] eqn:G3; try discriminate. clear E.
    assert (B := G3). apply gread_bounds in B; [|apply rd_le_IB].
    eapply gread_size in G1; [|apply rd_le_size]. eapply gread_size in G2; [|apply rd_le_size].
    eapply gread_size in G3; [|apply rd_le_size]. lia. }
  revert E.
  destruct (split_le 2 body W) as (a & r1 & Ha & -> & W1 & L1); [lia|].
  destruct (split_le 2 r1 W1) as (b & r2 & Hb & -> & W2 & L2); [lia|].
  destruct (split_le 2 r2 W2) as (c & r3 & Hc & -> & W3 & L3); [lens; lia|].
  unfold canon_assoc_resp. rewrite (aid_field_at _ _ c r3 Hc) by apply le_bytes_length.
  unfold rd_assoc_resp. start P. rstep P. rstep P. rstep P. intros E C.
  set (ea := if (c =? 0)%N then Ok None else _) in E.
  assert (X : forall o, ea = @Ok serr _ o -> match o with Some a => ok_aid a /\ a = c | None => c = 0%N end).
  { unfold ea. intros o. destruct (N.eqb_spec c 0) as [Z|Z]; [now intros [= <-]|].
    destruct (aid_new_checked c) as [d|] eqn:D; [|discriminate]. intros [= <-].
    split; [now apply (aid_checked_ok c)|]. apply aid_checked_same; auto. destruct C; [contradiction|assumption]. }
  destruct ea as [o| |]; try discriminate. specialize (X o eq_refl). cbn [rbind] in E.
  destruct (gread rd_elements _ _) as [[x o']| |] eqn:G; try discriminate. cbn [rbind] in E. injection E as <- <-.
  apply (gread_elements_inv _ _ _ _ _ P) in G as ->.
  unfold ok_assoc_resp, fixed_assoc_resp, u16. cbn [ar_capabilities ar_status ar_aid ar_elements].
  rewrite !status_into_from.
  rewrite <- !app_assoc. destruct o as [d|]; [destruct X as [X ->]|subst c]; auto 6.
Qed.
Lemma rd_assoc_resp_NP : NoPanic rd_assoc_resp.
Proof.
  intros from. unfold rd_assoc_resp.
  destruct (gread (rd_le 2) from 0) as [[a o]| |] eqn:G1; cbn [rbind]; [|discriminate|elim (gread_no_panic _ _ _ (rd_le_NP 2) G1)].
  destruct (gread (rd_le 2) from o) as [[b o2]| |] eqn:G2; cbn [rbind]; [|discriminate|elim (gread_no_panic _ _ _ (rd_le_NP 2) G2)].
  destruct (gread (rd_le 2) from o2) as [[c o3]| |] eqn:G3; cbn [rbind]; [|discriminate|elim (gread_no_panic _ _ _ (rd_le_NP 2) G3)].
  destruct (c =? 0)%N; cbn [rbind]; [np|]. destruct (aid_new_checked c); cbn [rbind]; [np|discriminate].
Qed.
Lemma rd_assoc_resp_IB : InBounds rd_assoc_resp.
Proof.
  intros from x n E. unfold rd_assoc_resp in E.
  destruct (gread (rd_le 2) from 0) as [[a o]| |] eqn:G1; try discriminate. cbn [rbind] in E.
  destruct (gread (rd_le 2) from o) as [[b o2]| |] eqn:G2; try discriminate. cbn [rbind] in E.
  destruct (gread (rd_le 2) from o2) as [[c o3]| |] eqn:G3; try discriminate. cbn [rbind] in E.
  destruct (if (c =? 0)%N then _ else _) as [d| |]; try discriminate. cbn [rbind] in E.
  destruct (gread rd_elements from o3) as [[e o4]| |] eqn:G; try discriminate. cbn [rbind] in E.
  injection E as _ <-. apply gread_bounds in G; [lia|apply rd_elements_IB].
Qed.

(** ** Deauthentication, disassociation *)
Lemma reason_rt s n : mgmt_subtype_into_bits s = n -> (n < 16)%N -> mgmt_subtype_from_bits n = s ->
  MgmtRoundTrip (reason_body s) n ok_reason fixed_reason rb_elements with_reason False.
Proof.
  intros A B C. apply mgmt_round_trip; try assumption.
  - intros w _. unfold fixed_reason. auto using le_bytes_wf.
  - intros [].
  - intros w es _ W. eapply (body_W [_]); [fixed_ws|cbn [concat]; now rewrite app_nil_r|exact W].
  - intros w es _ W N. eapply (body_T [_]); [fixed_ws|cbn [concat]; now rewrite app_nil_r|exact W|exact N].
  - intros w es (C1 & H1) We [[]|K]. eexists. cbn [bt_read reason_body]. unfold rd_reason, fixed_reason, u16 in *.
    start P. rstep P. rewrite (gread_elements _ _ _ P K). cbn [rbind]. rewrite C1. reflexivity.
Qed.
Lemma rd_reason_inv body r n : wf_bytes body -> rd_reason body = Ok (r, n) -> True ->
  ok_reason r /\ body = fixed_reason r ++ rb_elements r.
Proof.
  intros W E _. assert (L : 2 <= length body) by (unfold rd_reason in E; rinv E; lia). revert E.
  destruct (split_le 2 body W) as (a & r1 & Ha & -> & W1 & L1); [lia|].
  unfold rd_reason. start P. rstep P. intros E.
  destruct (gread rd_elements _ _) as [[x o]| |] eqn:G; try discriminate. cbn [rbind] in E. injection E as <- <-.
  apply (gread_elements_inv _ _ _ _ _ P) in G as ->.
  unfold ok_reason, fixed_reason, u16. cbn [rb_reason rb_elements].
  rewrite !reason_into_from. auto.
Qed.
Lemma rd_reason_NP : NoPanic rd_reason.
Proof. intros from. unfold rd_reason. np. Qed.
Lemma rd_reason_IB : InBounds rd_reason.
Proof. intros from x n E. unfold rd_reason in E. rinv E. injection E as _ <-. lia. Qed.

(** ** Probe request *)
Lemma probe_rt : MgmtRoundTrip ProbeRequest 4 ok_any fixed_probe pq_elements with_probe False.
Proof.
  apply mgmt_round_trip; try reflexivity.
  - intros w _. constructor.
  - intros [].
  - intros w es _ W. exact W.
  - intros w es _ W _. exact W.
  - intros w es _ We [[]|K]. eexists. cbn [bt_read ProbeRequest fixed_probe app]. unfold rd_probe_req.
    rewrite (gread_elements _ _ _ (At_start es) K). reflexivity.
Qed.
Lemma rd_probe_inv body r n : wf_bytes body -> rd_probe_req body = Ok (r, n) -> True ->
  ok_any r /\ body = fixed_probe r ++ pq_elements r.
Proof.
  intros W E _. unfold rd_probe_req in E.
  destruct (gread rd_elements _ _) as [[x o]| |] eqn:G; try discriminate. cbn [rbind] in E. injection E as <- <-.
  apply (gread_elements_inv _ _ _ _ _ (At_start body)) in G as ->. now split.
Qed.
Lemma rd_probe_NP : NoPanic rd_probe_req.
Proof. intros from. unfold rd_probe_req. np. Qed.
Lemma rd_probe_IB : InBounds rd_probe_req.
Proof. intros from x n E. unfold rd_probe_req in E. rinv E. injection E as _ <-. lia. Qed.
End Facts.
