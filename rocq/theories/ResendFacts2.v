From Verif Require Import Base BaseFacts SpecBase Utf8 Utf8Facts Elements SpecElements ElementsFacts ElementTypes SpecElementTypes ElementTypesFacts
  ElementTypesFacts2 ElementTypesFacts3 SpecResend SpecUtf8 Rsn SpecRsn RsnFacts RsnFacts2 RsnFacts3 RsnFacts4 SpecForward ForwardFacts.

Section Facts.
Context {cfg : Cfg}.

Lemma Writes_unique w a b : Writes w a -> Writes w b -> a = b.
Proof.
  intros [_ A] [_ B]. set (buf := repeat 0%N (length a + length b + slack)).
  assert (L : length buf = length a + length b + slack) by apply repeat_length.
  specialize (A buf ltac:(lia)). specialize (B buf ltac:(lia)). rewrite A in B. injection B as E EL.
  apply (f_equal (firstn (length a))) in E. rewrite firstn_app_exact in E by reflexivity. rewrite EL in E. now rewrite firstn_app_exact in E.
Qed.
(** ** OWE transition mode *)
Lemma rd_band_two from off a b rest : At from off ([a] ++ [b] ++ rest) -> gread_ok rd_band from off = Ok (Some (a, b), off + 2).
Proof.
  intros A. unfold gread_ok. rewrite (gread_at rd_band _ _ _ A) by (right; discriminate).
  replace ([a] ++ [b] ++ rest) with (([a] ++ [b]) ++ rest) by reflexivity. rewrite (rd_band_R a b). reflexivity.
Qed.
Lemma rd_band_less from off q : At from off q -> length q < 2 -> gread_ok rd_band from off = Ok (None, off).
Proof.
  intros [A L] S. unfold gread_ok, gread. destruct (end_bad _ _); [reflexivity|]. rewrite A.
  destruct q as [|a [|b q]]; [| |cbn in S; lia]; unfold rd_band, gread; cbn [length]; (destruct (end_bad 0 _); [reflexivity|]); cbn [skipn rd_u8 rbind];
    try reflexivity; destruct (end_bad _ _); reflexivity.
Qed.
Lemma owe_parse bs x n : wf_bytes bs -> rd_owe bs = Ok (x, n) -> exists tail, bs = enc_owe x ++ tail /\ ok_owe is_utf8 x /\
  (owe_band x = None -> length tail < 2).
Proof.
  intros W E. unfold rd_owe in E.
  destruct (gread (rd_bytes 6) bs 0) as [[bssid o1]| |] eqn:G1; cbn [rbind] in E; try discriminate.
  destruct (gread rd_u8 bs o1) as [[len o2]| |] eqn:G2; cbn [rbind] in E; try discriminate.
  destruct (gread (rd_str (N.to_nat len)) bs o2) as [[ssid o3]| |] eqn:G3; cbn [rbind] in E; try discriminate.
  apply gread_inv in G1 as (_ & k1 & R1 & ->). cbn [skipn] in R1. apply rd_bytes_inv in R1 as (-> & r1 & -> & L1).
  apply gread_inv in G2 as (_ & k2 & R2 & ->). cbn [Nat.add] in R2. rewrite <- L1, skipn_app_exact in R2 by reflexivity.
  apply rd_u8_inv in R2 as (-> & r2 & ->).
  assert (A2 : At (bssid ++ len :: r2) (0 + 6 + 1) r2).
  { split; [|rewrite app_length; cbn [length]; lia]. replace (0 + 6 + 1) with (length (bssid ++ [len])) by (rewrite app_length; cbn; lia).
    replace (bssid ++ len :: r2) with ((bssid ++ [len]) ++ r2) by now rewrite <- app_assoc. now rewrite skipn_app_exact. }
  apply gread_inv in G3 as (_ & k3 & R3 & ->). rewrite (proj1 A2) in R3. apply rd_str_spec in R3 as (Ls & -> & -> & U).
  unfold wf_bytes in W. rewrite Forall_app in W. destruct W as [Wb Wr]. inversion Wr as [|? ? Wl Wr2]; subst.
  rewrite <- (firstn_skipn (N.to_nat len) r2) in A2 at 2. apply At_step in A2.
  assert (LF : length (firstn (N.to_nat len) r2) = N.to_nat len) by (rewrite firstn_length; lia).
  rewrite LF in A2.
  assert (Ws : wf_bytes (firstn (N.to_nat len) r2)) by now apply wf_firstn.
  assert (Wt : wf_bytes (skipn (N.to_nat len) r2)) by now apply wf_skipn.
  assert (H : forall band tail, skipn (N.to_nat len) r2 = match band with Some (a, b) => [a] ++ [b] | None => [] end ++ tail ->
    match band with Some (a, b) => u8 a /\ u8 b | None => length tail < 2 end ->
    x = mkOWE bssid (firstn (N.to_nat len) r2) band ->
    exists tail, bssid ++ len :: r2 = enc_owe x ++ tail /\ ok_owe is_utf8 x /\ (owe_band x = None -> length tail < 2)).
  { intros band tail Sk B ->. exists tail. unfold enc_owe, ok_owe, byte_array. cbn [owe_bssid owe_ssid owe_band]. rewrite LF, N2Nat.id. split; [|split].
    - rewrite <- !app_assoc. cbn [app]. f_equal. f_equal. rewrite <- (firstn_skipn (N.to_nat len) r2) at 1. now rewrite Sk.
    - split; [now split|]. split; [exact Ws|]. split; [lia|]. split; [exact U|]. destruct band as [[a b]|]; [exact B|exact I].
    - intros ->. exact B. }
  destruct (skipn (N.to_nat len) r2) as [|a [|b tail]] eqn:Sk.
  - rewrite (rd_band_less _ _ _ A2) in E by (cbn; lia). cbn [rbind] in E. injection E as <- <-. eapply (H None []); [reflexivity|cbn; lia|reflexivity].
  - rewrite (rd_band_less _ _ _ A2) in E by (cbn; lia). cbn [rbind] in E. injection E as <- <-. eapply (H None [a]); [reflexivity|cbn; lia|reflexivity].
  - rewrite (rd_band_two _ _ a b tail A2) in E. cbn [rbind] in E. injection E as <- <-. inversion Wt as [|? ? Wa Wt']. inversion Wt' as [|? ? Wb' _]. subst.
    eapply (H (Some (a, b)) tail); [reflexivity|split; assumption|reflexivity].
Qed.
Lemma kept_owe_enc x tail : ok_owe is_utf8 x -> (owe_band x = None -> length tail < 2) -> kept_owe (enc_owe x ++ tail) = enc_owe x.
Proof.
  intros ((L & W) & Ws & Ls & U & B) T. unfold kept_owe.
  assert (N6 : nth 6 (enc_owe x ++ tail) 0%N = N.of_nat (length (owe_ssid x))).
  { unfold enc_owe. rewrite <- app_assoc, app_nth2 by lia. rewrite L. reflexivity. }
  rewrite N6, Nat2N.id.
  assert (LE : length (enc_owe x) = 7 + length (owe_ssid x) + match owe_band x with Some _ => 2 | None => 0 end).
  { unfold enc_owe. rewrite !app_length, L. destruct (owe_band x) as [[a b]|]; cbn [length app]; lia. }
  rewrite app_length, LE. destruct (owe_band x) as [[a b]|] eqn:Eb.
  - match goal with |- context [?p <=? ?q] => destruct (Nat.leb_spec p q); [|lia] end. apply firstn_app_exact. rewrite LE. lia.
  - specialize (T eq_refl). match goal with |- context [?p <=? ?q] => destruct (Nat.leb_spec p q); [lia|] end. apply firstn_app_exact. rewrite LE. lia.
Qed.
Lemma owe_resent : strict_end = false -> Resent OWETransitionModeElement (fun x => x) kept_owe.
Proof.
  intros SE bs x n W _ E. cbn [et_read OWETransitionModeElement] in E.
  destruct (owe_parse bs x n W E) as (tail & -> & O & T). rewrite (kept_owe_enc x tail O T).
  destruct (owe_round_trip x (conj O (or_introl SE))) as (body & Ww & M & Wf & R).
  assert (Eb : body = enc_owe x) by (eapply Writes_unique; [exact Ww|now apply wr_owe_W]). subst body.
  split; [exact Wf|]. split; [rewrite app_length; lia|].
  split; [intros X; exfalso; apply (f_equal (@length N)) in X; unfold enc_owe in X; rewrite !app_length in X; cbn [length] in X; lia|].
  split; [exact Ww|]. split; [exact M|]. eauto.
Qed.

(** ** RSN *)
Lemma ciphers_of bs : forall k, length bs = 4 * k -> wf_bytes bs -> exists l, Forall ok_cipher l /\ bs = concat (map enc_cipher l).
Proof.
  intros k. revert bs. induction k as [|k IH]; intros bs L W; [exists []; split; [constructor|]; apply length0; lia|].
  destruct (split_le 4 bs W ltac:(lia)) as (sel & q & B & -> & Wq & Lq). destruct (cipher_cases sel B) as (E & O & _).
  destruct (IH q) as (l & F & ->); [lia|exact Wq|]. exists (cipher_from_selector sel :: l). split; [now constructor|]. cbn [map concat]. now rewrite <- E.
Qed.
Lemma akms_of bs : forall k, length bs = 4 * k -> wf_bytes bs -> exists l, Forall ok_akm l /\ bs = concat (map enc_akm l).
Proof.
  intros k. revert bs. induction k as [|k IH]; intros bs L W; [exists []; split; [constructor|]; apply length0; lia|].
  destruct (split_le 4 bs W ltac:(lia)) as (sel & q & B & -> & Wq & Lq). destruct (akm_cases sel B) as (E & O & _).
  destruct (IH q) as (l & F & ->); [lia|exact Wq|]. exists (akm_from_selector sel :: l). split; [now constructor|]. cbn [map concat]. now rewrite <- E.
Qed.
Lemma count_fixed {A} (r : reader A) size b : 0 < size -> ItemsOf size r -> rl_count r (Iter b) = length b / size.
Proof.
  intros P I. unfold rl_count, rl_items, iter_all. destruct (iter_len_fixed r size (Some b) P I) as (l & E & L). cbn [unread] in E. rewrite E. exact L.
Qed.
Lemma rd_bytes_items k : ItemsOf k (rd_bytes k).
Proof.
  split; intros bs L; unfold rd_bytes; [destruct (Nat.ltb_spec (length bs) k); [eauto|lia]|].
  destruct (Nat.ltb_spec (length bs) k); [lia|eauto].
Qed.
Lemma rd_cipher_items : ItemsOf 4 rd_cipher.
Proof.
  split; [intros; now apply rd_cipher_short|]. intros bs L. destruct bs as [|a bs]; [cbn in L; lia|].
  unfold rd_cipher, gread. cbn [length]. rewrite end_bad_false by (unfold slack; destruct strict_end; lia). cbn [skipn]. unfold rd_le.
  destruct (Nat.ltb_spec (length (a :: bs)) 4); [lia|]. cbn [rbind]. eauto.
Qed.
Lemma rd_akm_items : ItemsOf 4 rd_akm.
Proof.
  split; [intros; now apply rd_akm_short|]. intros bs L. destruct bs as [|a bs]; [cbn in L; lia|].
  unfold rd_akm, gread. cbn [length]. rewrite end_bad_false by (unfold slack; destruct strict_end; lia). cbn [skipn]. unfold rd_le.
  destruct (Nat.ltb_spec (length (a :: bs)) 4); [lia|]. cbn [rbind]. eauto.
Qed.
Definition fours {A} (o : option (RList A)) : Prop :=
  match o with None => True | Some (Iter b) => exists k, length b = 4 * k | Some (Arr _) => False end.
Lemma rd_list_fours from off b o : rd_list from off = Ok (Some b, o) -> exists k, length b = 4 * k.
Proof.
  unfold rd_list. destruct (gread_ok (rd_le 2) from off) as [[[n|] o1]| |]; cbn [rbind]; try discriminate.
  unfold gread_ok. destruct (gread (rd_bytes (N.to_nat (n * 4))) from o1) as [[x o2]| |] eqn:G; try discriminate. intros [= -> ->].
  apply gread_inv in G as (_ & k & R & _). apply rd_bytes_inv in R as (_ & r & _ & L). exists (N.to_nat n). lia.
Qed.
Lemma rsn_fours bs y n : rd_rsn bs = Ok (y, n) -> fours (rsn_pairwise y) /\ fours (rsn_akm y) /\ fours (rsn_pmkids y).
Proof.
  unfold rd_rsn. intros E.
  destruct (gread (rd_le 2) bs 0) as [[v o]| |]; cbn [rbind] in E; try discriminate.
  destruct (negb _); [discriminate|].
  destruct (gread_ok rd_cipher bs o) as [[[g|] o1]| |]; cbn [rbind] in E; try discriminate; [|injection E as <- <-; cbn; auto].
  destruct (rd_list bs o1) as [[[p|] o2]| |] eqn:G1; cbn [rbind] in E; try discriminate; [|injection E as <- <-; cbn; auto]. apply rd_list_fours in G1.
  destruct (rd_list bs o2) as [[[a|] o3]| |] eqn:G2; cbn [rbind] in E; try discriminate; [|injection E as <- <-; cbn; auto]. apply rd_list_fours in G2.
  destruct (gread_ok (rd_ne 2) bs o3) as [[[c|] o4]| |]; cbn [rbind] in E; try discriminate; [|injection E as <- <-; cbn; auto].
  destruct (rd_list bs o4) as [[[k|] o5]| |] eqn:G3; cbn [rbind] in E; try discriminate; [|injection E as <- <-; cbn; auto]. apply rd_list_fours in G3.
  destruct (gread_ok rd_cipher bs o5) as [[m o6]| |]; cbn [rbind] in E; try discriminate. injection E as <- <-. cbn. auto.
Qed.
Lemma rsn_announced bs y n : rd_rsn bs = Ok (y, n) ->
  rsn_measure y + (length (pmkid_bytes y) - 4 * (length (pmkid_bytes y) / 16)) = length (raw_enc y).
Proof.
  intros E. destruct (rsn_fours bs y n E) as (Fp & Fa & Fk). unfold rsn_measure, raw_enc, pmkid_bytes.
  rewrite !app_length, le_bytes_length.
  assert (Lc : length (opt_enc (fun c => if native_le then le_bytes 2 c else be_bytes 2 c) (rsn_caps y)) = match rsn_caps y with Some _ => 2 | None => 0 end).
  { destruct (rsn_caps y); [|reflexivity]. cbn [opt_enc]. now destruct native_le; rewrite ?le_bytes_length, ?be_bytes_length. }
  assert (Lg : forall o, length (opt_enc enc_cipher o) = match o with Some _ => 4 | None => 0 end) by (intros [c|]; [apply enc_cipher_len|reflexivity]).
  assert (Lp : length (raw_list (rsn_pairwise y)) = match rsn_pairwise y with Some l => 2 + rl_count rd_cipher l * 4 | None => 0 end).
  { destruct (rsn_pairwise y) as [[l|b]|]; [destruct Fp| |reflexivity]. destruct Fp as [k L].
    rewrite (count_fixed rd_cipher 4 b) by (try lia; apply rd_cipher_items).
    cbn [raw_list]. rewrite app_length, le_bytes_length, L. replace (4 * k) with (k * 4) by lia. rewrite Nat.div_mul by lia. lia. }
  assert (La : length (raw_list (rsn_akm y)) = match rsn_akm y with Some l => 2 + rl_count rd_akm l * 4 | None => 0 end).
  { destruct (rsn_akm y) as [[l|b]|]; [destruct Fa| |reflexivity]. destruct Fa as [k L].
    rewrite (count_fixed rd_akm 4 b) by (try lia; apply rd_akm_items).
    cbn [raw_list]. rewrite app_length, le_bytes_length, L. replace (4 * k) with (k * 4) by lia. rewrite Nat.div_mul by lia. lia. }
  rewrite Lc, !Lg, Lp, La.
  destruct (rsn_pmkids y) as [[l|b]|]; [destruct Fk| |cbn; lia]. cbn [raw_list].
  rewrite (count_fixed rd_pmkid 16 b) by (try lia; apply rd_bytes_items). rewrite app_length, le_bytes_length.
  pose proof (Nat.mul_div_le (length b) 16 ltac:(lia)). lia.
Qed.
Lemma quarter {A} (f : A -> bytes) l : (forall x, length (f x) = 4) -> length (concat (map f l)) / 4 = 1 * length l.
Proof.
  intros H. assert (E : length (concat (map f l)) = length l * 4).
  { induction l as [|x l IH]; [reflexivity|]. cbn [map concat length]. rewrite app_length, IH, H. lia. }
  rewrite E, Nat.div_mul by lia. lia.
Qed.
Lemma wf_app_inv a b : wf_bytes (a ++ b) -> wf_bytes a /\ wf_bytes b.
Proof. unfold wf_bytes. now rewrite Forall_app. Qed.
Lemma rsn_resent bs y n : native_le = true -> strict_end = false -> wf_bytes bs -> length bs <= 255 -> rd_rsn bs = Ok (y, n) ->
  pmkid_bytes y = [] -> Writes (wr_rsn y) (raw_enc y) /\ rsn_measure y = length (raw_enc y) /\ ReadsAll rd_rsn (raw_enc y) y.
Proof.
  intros NL SE W L E P. destruct (rsn_parse_rewrite bs y n W NL ltac:(lia) E) as (tail & Eb & St & Ww).
  split; [exact Ww|]. pose proof (rsn_announced bs y n E) as M. rewrite P in M. change (length (@nil N) - 4 * (length (@nil N) / 16)) with 0 in M. rewrite Nat.add_0_r in M. split; [exact M|].
  destruct (rd_rsn_any bs W) as [[[e X] _]|(y' & n' & t' & E' & _ & _ & (Og & Oc & Om) & _)]; [congruence|].
  rewrite E in E'. injection E' as <- <-.
  destruct (rsn_fours bs y n E) as (Fp & Fa & Fk).
  assert (V : exists v, y = received v /\ ok_view v /\ gap_free v /\ raw_enc y = enc_rsn 4 v).
  { rewrite Eb in W. apply wf_app_inv in W as [W _].
    destruct y as [g p a c k m]. unfold raw_enc in *. cbn [rsn_group rsn_pairwise rsn_akm rsn_caps rsn_pmkids rsn_group_mgmt] in *.
    apply wf_app_inv in W as [_ W]. apply wf_app_inv in W as [_ W]. apply wf_app_inv in W as [Wp W]. apply wf_app_inv in W as [Wa W].
    assert (Hp : exists q, p = option_map (fun l => Iter (concat (map enc_cipher l))) q /\ opt_ok (Forall ok_cipher) q /\
      raw_list p = opt_enc (enc_list 1 enc_cipher) q).
    { destruct p as [[?|b]|]; [destruct Fp| |exists None; cbn; auto]. destruct Fp as [k' Lb]. cbn [raw_list] in Wp. apply wf_app_inv in Wp as [_ Wp].
      destruct (ciphers_of b k' Lb Wp) as (l & F & ->). exists (Some l). cbn [option_map opt_ok raw_list opt_enc]. split; [reflexivity|]. split; [exact F|].
      unfold enc_list. now rewrite (quarter enc_cipher) by apply enc_cipher_len. }
    assert (Ha : exists q, a = option_map (fun l => Iter (concat (map enc_akm l))) q /\ opt_ok (Forall ok_akm) q /\
      raw_list a = opt_enc (enc_list 1 enc_akm) q).
    { destruct a as [[?|b]|]; [destruct Fa| |exists None; cbn; auto]. destruct Fa as [k' Lb]. cbn [raw_list] in Wa. apply wf_app_inv in Wa as [_ Wa].
      destruct (akms_of b k' Lb Wa) as (l & F & ->). exists (Some l). cbn [option_map opt_ok raw_list opt_enc]. split; [reflexivity|]. split; [exact F|].
      unfold enc_list. now rewrite (quarter enc_akm) by apply enc_akm_len. }
    assert (Hk : exists q : option (list bytes), k = option_map (fun l => Iter (concat l)) q /\ opt_ok (Forall ok_pmkid) q /\
      raw_list k = opt_enc (enc_list 4 (fun p => p)) q).
    { unfold pmkid_bytes in P. cbn in P. destruct k as [[?|b]|]; [destruct Fk| |exists None; cbn; auto]. subst b. exists (Some []). cbn. auto. }
    destruct Hp as (vp & -> & Op & ->), Ha as (va & -> & Oa & ->), Hk as (vk & -> & Ok' & ->).
    exists (mkView g vp va c vk m). split; [reflexivity|]. split; [repeat split; assumption|]. split.
    - clear - St. unfold stops_at in St. unfold gap_free. cbn [v_group v_pairwise v_akm v_caps v_pmkids v_group_mgmt].
      destruct g, vp, va, c, vk, m; cbn in St; try contradiction; repeat split; congruence.
    - unfold enc_rsn. rewrite NL. reflexivity. }
  destruct V as (v & -> & O & G & R). rewrite R in *. apply rd_rsn_written; [exact O|exact G| |now left|now left].
  apply fit_255. rewrite Eb, app_length in L. lia.
Qed.
End Facts.
