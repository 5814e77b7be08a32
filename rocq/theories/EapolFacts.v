(** Facts about EAPOL key frames. *)
From Verif Require Import Base SpecBase BaseFacts StepsFacts Bits Layouts Enums Common Mgmt SpecMgmt SpecElementTypes ElementTypesFacts
  MgmtFacts2 MgmtFacts5 Suites Data SpecData DataFacts DataFacts2 DataFacts5 Rsn Eapol SpecEapol.
Local Ltac lens := rewrite ?app_length, ?le_bytes_length, ?be_bytes_length, ?ne_bytes_length, ?repeat_length; cbn [length].

Lemma be2_mod x : be_bytes 2 (x mod 65536) = be_bytes 2 x.
Proof. unfold be_bytes. f_equal. cbn [le_bytes]. f_equal; [|f_equal]; lia. Qed.
Lemma enc_key_fields_length {P} (k : KeyFrame P) : length (key_nonce k) = 32 -> length (enc_key_fields k) = 77.
Proof. intros H. unfold enc_key_fields. lens. lia. Qed.
Lemma enc_key_body_length k : length (key_nonce k) = 32 -> length (enc_key_body k) = 77 + length (key_mic k) + 2 + length (key_data k).
Proof. intros H. unfold enc_key_body. rewrite !app_length, enc_key_fields_length by exact H. lens. lia. Qed.
Lemma enc_key_frame_length k : length (key_nonce k) = 32 -> length (enc_key_frame k) = 81 + length (key_mic k) + 2 + length (key_data k).
Proof. intros H. unfold enc_key_frame. rewrite !app_length, enc_key_body_length by exact H. lens. lia. Qed.

Lemma enc_key_frame_wf k : ok_key_frame k -> wf_bytes (enc_key_frame k).
Proof.
  intros (H1 & H2 & H3 & Ln & Wn & H5 & H6 & Wm & Wd & L). unfold enc_key_frame, enc_key_body, enc_key_fields.
  rewrite !wf_bytes_app. repeat split; try apply be_bytes_wf; try assumption; repeat constructor.
Qed.
Lemma be_bytes_small n v : (v < 256 ^ N.of_nat n)%N -> be_val (be_bytes n v) = v.
Proof. apply be_val_bytes_small. Qed.

(** ** Positions *)
Lemma between_app (a b c : bytes) : between_bytes (a ++ b ++ c) (length a) (length a + length b) = b.
Proof. unfold between_bytes. rewrite skipn_app_exact by reflexivity. apply firstn_app_exact. lia. Qed.
(** everything in front of the EAPOL packet; everything in front of the MIC *)
Definition before_eapol h oui et : bytes := enc_fcf 2 (subtype_number h) (dh_flags h) ++ enc_data_header h ++ enc_snap oui et.
Definition before_mic {P} (k : KeyFrame P) (n : nat) : bytes := [2; 3]%N ++ be_bytes 2 (N.of_nat n) ++ enc_key_fields k.
Lemma enc_eapol_eq h oui et k : enc_eapol h oui et k = before_eapol h oui et ++ enc_key_frame k.
Proof. unfold enc_eapol, enc_data, before_eapol. now rewrite <- !app_assoc. Qed.
Lemma enc_key_frame_eq k : enc_key_frame k = before_mic k (length (enc_key_body k)) ++ key_mic k ++ be_bytes 2 (N.of_nat (length (key_data k))) ++ key_data k.
Proof. unfold enc_key_frame, before_mic. unfold enc_key_body at 2. now rewrite <- !app_assoc. Qed.
Lemma before_mic_length {P} (k : KeyFrame P) n : length (key_nonce k) = 32 -> length (before_mic k n) = 81.
Proof. intros H. unfold before_mic. rewrite !app_length, enc_key_fields_length by exact H. lens. reflexivity. Qed.
Section F.
Context {cfg : Cfg}.
(** ** Writing *)
Definition fields_ws (k : KeyFrame Container) : list writer :=
  [wr_u8 2; wr_be 2 (key_information k); wr_be 2 (key_length k); wr_be 8 (key_replay_counter k);
   wr_bytes (key_nonce k); wr_be 16 (key_iv k); wr_be 8 (key_rsc k); wr_be 8 0; wr_bytes (key_mic k)].
Lemma fields_far k buf off : length buf < off -> exists e, wseq_from (fields_ws k) buf off = Err e.
Proof. intros L. unfold fields_ws. cbn [wseq_from]. destruct (gwrite_far (wr_u8 2) buf off L) as [e ->]. cbn. eauto. Qed.
Lemma wr_key_frame_W (k : KeyFrame Container) kd : Writes (c_write (key_data k)) kd -> Writes (wr_key_frame k) (enc_key_frame (with_data k kd)).
Proof.
  intros W.
  pose (len2 := fun n : nat => be_bytes 2 (N.of_nat n mod 65536)).
  pose (inner := backpatch 2 (gwrite (c_write (key_data k))) len2).
  pose (mid := fun buf off => '(buf, off) <- wseq_from (fields_ws k) buf off ;; inner buf off).
  pose (outer := fun buf off => '(buf, off) <- wseq_from [wr_u8 2; wr_u8 3] buf off ;; backpatch 2 mid len2 buf off).
  assert (Si : Steps inner (len2 (length kd) ++ kd)).
  { apply Steps_backpatch; [now apply Steps_gwrite|discriminate|apply be_bytes_length|]. intros. now apply gwrite_far. }
  assert (Sm : Steps mid (enc_key_body (with_data k kd))).
  { assert (E : enc_key_body (with_data k kd) =
      concat [[2]%N; be_bytes 2 (key_information k); be_bytes 2 (key_length k); be_bytes 8 (key_replay_counter k); key_nonce k;
              be_bytes 16 (key_iv k); be_bytes 8 (key_rsc k); be_bytes 8 0; key_mic k] ++ (len2 (length kd) ++ kd)).
    { unfold enc_key_body, enc_key_fields, len2. rewrite be2_mod. cbn [concat with_data key_information key_length key_replay_counter key_nonce key_iv key_rsc key_mic key_data].
      rewrite <- !app_assoc. reflexivity. }
    rewrite E. apply Steps_seq; [apply Steps_wseq|exact Si]. unfold fields_ws. repeat (constructor; [apply wr_bytes_W|]). constructor. }
  assert (So : Steps outer (enc_key_frame (with_data k kd))).
  { unfold enc_key_frame. apply Steps_seq; [apply (Steps_wseq _ [[2]; [3]]%N); repeat (constructor; [apply wr_bytes_W|]); constructor|].
    rewrite <- be2_mod. apply (Steps_backpatch 2 mid len2); [exact Sm|discriminate|apply be_bytes_length|].
    intros buf off L. unfold mid. destruct (fields_far k buf off L) as [e ->]. cbn. eauto. }
  assert (E : forall buf, wr_key_frame k buf = outer buf 0).
  { intros buf. unfold wr_key_frame, outer, backpatch, mid, inner, backpatch.
    destruct (wseq_from [wr_u8 2; wr_u8 3] buf 0) as [[b1 o1]| |]; try reflexivity. cbn [rbind].
    change [wr_u8 2; wr_be 2 (key_information k); wr_be 2 (key_length k); wr_be 8 (key_replay_counter k);
      wr_bytes (key_nonce k); wr_be 16 (key_iv k); wr_be 8 (key_rsc k); wr_be 8 0; wr_bytes (key_mic k)] with (fields_ws k).
    destruct (wseq_from (fields_ws k) b1 (o1 + 2)) as [[b2 o2]| |]; try reflexivity. cbn [rbind].
    destruct (gwrite (c_write (key_data k)) b2 (o2 + 2)) as [[b3 o3]| |]; try reflexivity. cbn [rbind].
    unfold wr_be, len2. replace (o3 - o2 - 2) with (o3 - (o2 + 2)) by lia.
    destruct (pwrite (wr_bytes (be_bytes 2 (N.of_nat (o3 - (o2 + 2)) mod 65536))) b3 o2) as [[b4 o4]| |]; try reflexivity. cbn [rbind].
    replace (o3 - o1 - 2) with (o3 - (o1 + 2)) by lia. reflexivity. }
  apply Steps_W in So. split; intros buf; rewrite E; apply So.
Qed.
Lemma c_snap_W oui et c body : Writes (c_write c) body -> Writes (c_write (c_snap (mkSnap oui et c))) (enc_snap oui et ++ body).
Proof.
  intros W. unfold c_snap, enc_snap. cbn [c_write snap_oui snap_ether_type snap_payload].
  replace (([0xaa; 0xaa; 3]%N ++ oui ++ be_bytes 2 et) ++ body) with (concat [[0xaa; 0xaa; 3]%N; oui; be_bytes 2 et; body])
    by (cbn [concat]; rewrite app_nil_r, <- !app_assoc; reflexivity).
  apply wseq_W. repeat (constructor; [apply wr_bytes_W|]). constructor; [exact W|constructor].
Qed.
Lemma kf_measure_spec (k : KeyFrame Container) kd : length (key_nonce k) = 32 -> c_measure (key_data k) = length kd ->
  kf_measure k = length (enc_key_frame (with_data k kd)).
Proof. intros H M. rewrite enc_key_frame_length by exact H. unfold kf_measure. cbn [with_data key_mic key_data]. lia. Qed.

(** ** Reading *)
Lemma gread_bytes from off bs rest : At from off (bs ++ rest) -> end_ok (bs ++ rest) -> gread (rd_bytes (length bs)) from off = Ok (bs, off + length bs).
Proof.
  intros [A L] EO. unfold gread. apply end_ok_slack in EO. rewrite end_bad_false by lia.
  rewrite A, (rd_bytes_R bs) by reflexivity. reflexivity.
Qed.
(** everything but the key data *)
Lemma rd_key_frame_run akm k rest : ok_key_frame k -> key_mic_len akm = Some (length (key_mic k)) ->
  At (enc_key_frame k) (length (enc_key_frame k) - length (key_data k)) (key_data k) /\
  rd_key_frame akm (enc_key_frame k ++ rest) =
    '(data, off) <- gread (rd_bytes (length (key_data k))) (enc_key_frame k) (length (enc_key_frame k) - length (key_data k)) ;;
    Ok (with_data k data, off).
Proof.
  intros (H1 & H2 & H3 & Ln & Wn & H5 & H6 & Wm & Wd & L) M.
  pose proof (enc_key_body_length k Ln) as LB.
  assert (B : (N.of_nat (length (enc_key_body k)) < 65536)%N) by (rewrite LB; exact L).
  assert (D : (N.of_nat (length (key_data k)) < 65536)%N) by lia.
  assert (PB : pread (rd_bytes (length (enc_key_body k) + 4)) (enc_key_frame k ++ rest) 0 = Ok (enc_key_frame k)).
  { unfold pread, gread. rewrite end_bad_lt by (unfold enc_key_frame; lens; lia). cbn [skipn]. rewrite (rd_bytes_R (enc_key_frame k)); [reflexivity|].
    unfold enc_key_frame. lens. lia. }
  assert (A : At (enc_key_frame k) 4 (enc_key_body k)).
  { unfold enc_key_frame. rewrite app_assoc. apply At_app. lens. reflexivity. }
  assert (E : enc_key_frame k ++ rest = [2]%N ++ [3]%N ++ be_bytes 2 (N.of_nat (length (enc_key_body k))) ++ (enc_key_body k ++ rest))
    by (unfold enc_key_frame; cbn [app]; now rewrite <- !app_assoc).
  pose proof (At_start (enc_key_frame k ++ rest)) as S. rewrite E in S at 2.
  unfold rd_key_frame. rstep S. rstep S. cbn [N.eqb Pos.eqb negb]. rstep S. rewrite Nnat.Nat2N.id, PB. cbn [rbind].
  replace (0 + length [2%N] + length [3%N] + length (be_bytes 2 (N.of_nat (length (enc_key_body k))))) with 4 by (lens; lia).
  unfold enc_key_body, enc_key_fields in A. rewrite <- !app_assoc in A.
  rstep A. cbn [N.eqb Pos.eqb negb]. rstep A. rstep A. rstep A. rstep A. rstep A. rstep A.
  cbv zeta. rewrite M. apply At_step in A. rewrite repeat_length in A.
  rewrite (gread_bytes _ _ _ _ A) by (right; apply nonempty_length; lens; lia). cbn [rbind]. apply At_step in A.
  rstep A. rewrite Nnat.Nat2N.id.
  match type of A with At _ ?o _ => replace (length (enc_key_frame k) - length (key_data k)) with o by (rewrite enc_key_frame_length by exact Ln; lens; lia) end.
  split; [exact A|reflexivity].
Qed.
Lemma rd_key_frame_R akm k rest : ok_key_frame k -> key_mic_len akm = Some (length (key_mic k)) -> end_ok (key_data k) ->
  rd_key_frame akm (enc_key_frame k ++ rest) = Ok (k, length (enc_key_frame k)).
Proof.
  intros H M EO. destruct (rd_key_frame_run akm k rest H M) as [A ->].
  rewrite (gread_bytes _ _ (key_data k) []) by (rewrite app_nil_r; first [exact A|exact EO]). cbn [rbind].
  f_equal. f_equal; [destruct k; reflexivity|]. pose proof (proj2 A). lia.
Qed.
Lemma rd_key_frame_strict akm k rest : strict_end = true -> ok_key_frame k -> key_mic_len akm = Some (length (key_mic k)) -> key_data k = [] ->
  rd_key_frame akm (enc_key_frame k ++ rest) = Err BadOffset.
Proof.
  intros SE H M E. destruct (rd_key_frame_run akm k rest H M) as [A ->]. rewrite E. cbn [length]. rewrite Nat.sub_0_r.
  unfold gread, end_bad. rewrite SE, Nat.leb_refl. reflexivity.
Qed.

Lemma gread_u8_inv from off q x o : At from off q -> wf_bytes q -> gread rd_u8 from off = Ok (x, o) ->
  exists q', q = [x] ++ q' /\ (x < 256)%N /\ o = off + 1 /\ At from o q' /\ wf_bytes q'.
Proof.
  intros A W G. unfold gread in G. destruct (end_bad _ _); [discriminate|]. destruct A as [E L]. rewrite E in G.
  destruct q as [|b q]; [discriminate|]. cbn in G. injection G as <- <-. apply wf_bytes_cons in W as [Hb W].
  exists q. split; [reflexivity|]. split; [exact Hb|]. split; [reflexivity|]. split; [|exact W]. apply (At_step from off [b] q). now split.
Qed.
Lemma gread_be_inv n from off q x o : At from off q -> wf_bytes q -> gread (rd_be n) from off = Ok (x, o) ->
  exists q', q = be_bytes n x ++ q' /\ (x < 256 ^ N.of_nat n)%N /\ o = off + n /\ At from o q' /\ wf_bytes q'.
Proof.
  intros A W G. unfold gread in G. destruct (end_bad _ _); [discriminate|]. destruct A as [E L]. rewrite E in G. unfold rd_be in G.
  destruct (Nat.ltb_spec (length q) n) as [|Ln]; [discriminate|]. destruct (split_be n q W Ln) as (v & q' & Hv & -> & W' & _).
  rewrite firstn_app_exact in G by (now rewrite be_bytes_length). rewrite be_val_bytes_small in G by exact Hv. injection G as <- <-.
  exists q'. split; [reflexivity|]. split; [exact Hv|]. split; [reflexivity|]. split; [|exact W'].
  rewrite <- (be_bytes_length n v) at 1. apply At_step. now split.
Qed.
Lemma gread_bytes_inv n from off q x o : At from off q -> wf_bytes q -> gread (rd_bytes n) from off = Ok (x, o) ->
  exists q', q = x ++ q' /\ length x = n /\ wf_bytes x /\ o = off + n /\ At from o q' /\ wf_bytes q'.
Proof.
  intros A W G. unfold gread in G. destruct (end_bad _ _); [discriminate|]. destruct A as [E L]. rewrite E in G. unfold rd_bytes in G.
  destruct (Nat.ltb_spec (length q) n) as [|Ln]; [discriminate|]. destruct (split_bytes n q W Ln) as (v & q' & Hv & Wv & -> & W' & _).
  rewrite firstn_app_exact in G by auto. injection G as <- <-.
  exists q'. split; [reflexivity|]. split; [exact Hv|]. split; [exact Wv|]. split; [reflexivity|]. split; [|exact W'].
  rewrite <- Hv. apply At_step. now split.
Qed.
Lemma rd_key_frame_inv akm bs k n : wf_bytes bs -> rd_key_frame akm bs = Ok (k, n) ->
  exists version len reserved tail, bs = enc_received version len reserved k ++ tail /\ length reserved = 8 /\ (len < 65536)%N /\
    n = length (enc_received version len reserved k) /\ n <= N.to_nat len + 4 <= length bs /\ ok_key_frame k /\ key_mic_len akm = Some (length (key_mic k)).
Proof.
  intros W G. pose proof (At_start bs) as A. unfold rd_key_frame in G.
  destruct (gread rd_u8 bs 0) as [[v o1]| |] eqn:X1; try discriminate G. cbn [rbind] in G.
  destruct (gread_u8_inv _ _ _ _ _ A W X1) as (q1 & E1 & Hv & -> & A1 & W1).
  destruct (gread rd_u8 bs (0 + 1)) as [[ty o2]| |] eqn:X2; try discriminate G. cbn [rbind] in G.
  destruct (gread_u8_inv _ _ _ _ _ A1 W1 X2) as (q2 & E2 & _ & -> & A2 & W2).
  destruct (N.eqb_spec ty 3) as [Ety|]; [rewrite Ety in E2|discriminate]. cbn [negb] in G.
  destruct (gread (rd_be 2) bs (0 + 1 + 1)) as [[len o3]| |] eqn:X3; try discriminate G. cbn [rbind] in G.
  destruct (gread_be_inv _ _ _ _ _ _ A2 W2 X3) as (q3 & E3 & Hlen & -> & A3 & W3).
  destruct (pread (rd_bytes (N.to_nat len + 4)) bs 0) as [pb| |] eqn:P; try discriminate G. cbn [rbind] in G.
  unfold pread in P. destruct (gread (rd_bytes (N.to_nat len + 4)) bs 0) as [[pb' o]| |] eqn:P'; try discriminate P. injection P as ->.
  destruct (gread_bytes_inv _ _ _ _ _ _ A W P') as (tail0 & Epb & Lpb & Wpb & _ & _ & _). clear P'.
  pose (p4 := [v; 3]%N ++ be_bytes 2 len).
  assert (L4 : length p4 = 4) by reflexivity.
  assert (Eb : bs = p4 ++ q3) by (rewrite E1, E2, E3; unfold p4; now rewrite <- !app_assoc).
  assert (Ep : pb = p4 ++ skipn 4 pb).
  { rewrite <- (firstn_skipn 4 pb) at 1. f_equal. assert (F : firstn 4 bs = firstn 4 pb) by (rewrite Epb, firstn_app; replace (4 - length pb) with 0 by lia; now rewrite app_nil_r).
    rewrite <- F, Eb. now apply firstn_app_exact. }
  set (q := skipn 4 pb) in *. clearbody q.
  assert (B : At pb (0 + 1 + 1 + 2) q) by (rewrite Ep; now apply At_app).
  assert (Wq : wf_bytes q) by (rewrite Ep in Wpb; now apply wf_bytes_app in Wpb).
  destruct (gread rd_u8 pb (0 + 1 + 1 + 2)) as [[dt o4]| |] eqn:X4; try discriminate G. cbn [rbind] in G.
  destruct (gread_u8_inv _ _ _ _ _ B Wq X4) as (r1 & F1 & _ & -> & B1 & Wr1).
  destruct (N.eqb_spec dt 2) as [Edt|]; [rewrite Edt in F1|discriminate]. cbn [negb] in G.
  destruct (gread (rd_be 2) pb _) as [[info o5]| |] eqn:X5; try discriminate G. cbn [rbind] in G.
  destruct (gread_be_inv _ _ _ _ _ _ B1 Wr1 X5) as (r2 & F2 & Hinfo & -> & B2 & Wr2).
  destruct (gread (rd_be 2) pb _) as [[kl o6]| |] eqn:X6; try discriminate G. cbn [rbind] in G.
  destruct (gread_be_inv _ _ _ _ _ _ B2 Wr2 X6) as (r3 & F3 & Hkl & -> & B3 & Wr3).
  destruct (gread (rd_be 8) pb _) as [[rc o7]| |] eqn:X7; try discriminate G. cbn [rbind] in G.
  destruct (gread_be_inv _ _ _ _ _ _ B3 Wr3 X7) as (r4 & F4 & Hrc & -> & B4 & Wr4).
  destruct (gread (rd_bytes 32) pb _) as [[no o8]| |] eqn:X8; try discriminate G. cbn [rbind] in G.
  destruct (gread_bytes_inv _ _ _ _ _ _ B4 Wr4 X8) as (r5 & F5 & Lno & Wno & -> & B5 & Wr5).
  destruct (gread (rd_be 16) pb _) as [[iv o9]| |] eqn:X9; try discriminate G. cbn [rbind] in G.
  destruct (gread_be_inv _ _ _ _ _ _ B5 Wr5 X9) as (r6 & F6 & Hiv & -> & B6 & Wr6).
  destruct (gread (rd_be 8) pb _) as [[rsc o10]| |] eqn:X10; try discriminate G. cbn [rbind] in G.
  destruct (gread_be_inv _ _ _ _ _ _ B6 Wr6 X10) as (r7 & F7 & Hrsc & -> & B7 & Wr7).
  cbv zeta in G. destruct (key_mic_len akm) as [ml|] eqn:M; [|discriminate G].
  destruct (gread (rd_bytes ml) pb _) as [[mic o11]| |] eqn:X11; try discriminate G. cbn [rbind] in G.
  assert (L8 : 8 <= length r7).
  { unfold gread in X11. destruct (end_bad _ _) eqn:EB; [discriminate|]. apply end_bad_le in EB. destruct B7 as [_ B7]. lia. }
  destruct (split_bytes 8 r7 Wr7 L8) as (res & r8 & Lres & _ & F8 & Wr8 & _).
  assert (B8 := B7). rewrite F8 in B8. apply At_step in B8. rewrite Lres in B8.
  destruct (gread_bytes_inv _ _ _ _ _ _ B8 Wr8 X11) as (r9 & F9 & Lmic & Wmic & -> & B9 & Wr9).
  destruct (gread (rd_be 2) pb _) as [[dl o12]| |] eqn:X12; try discriminate G. cbn [rbind] in G.
  destruct (gread_be_inv _ _ _ _ _ _ B9 Wr9 X12) as (r10 & F10 & Hdl & -> & B10 & Wr10).
  destruct (gread (rd_bytes (N.to_nat dl)) pb _) as [[data o13]| |] eqn:X13; try discriminate G. cbn [rbind] in G.
  destruct (gread_bytes_inv _ _ _ _ _ _ B10 Wr10 X13) as (r11 & F11 & Ldata & Wdata & -> & B11 & Wr11).
  injection G as <- <-.
  assert (Edl : dl = N.of_nat (length data)) by lia.
  exists v, len, res, (r11 ++ tail0).
  assert (EQ : bs = enc_received v len res (mkKF info kl rc no iv rsc mic data) ++ r11 ++ tail0).
  { rewrite Epb, Ep, F1, F2, F3, F4, F5, F6, F7, F8, F9, F10, F11. unfold p4, enc_received.
    cbn [key_information key_length key_replay_counter key_nonce key_iv key_rsc key_mic key_data]. rewrite Edl.
    rewrite <- !app_assoc. reflexivity. }
  assert (LR : length (enc_received v len res (mkKF info kl rc no iv rsc mic data)) = 83 + ml + length data).
  { unfold enc_received. cbn [key_information key_length key_replay_counter key_nonce key_iv key_rsc key_mic key_data]. lens. lia. }
  split; [exact EQ|]. split; [exact Lres|]. split; [exact Hlen|]. split; [rewrite LR; lia|].
  destruct B11 as [_ B11]. assert (Lt : length bs = length pb + length tail0) by (rewrite Epb; apply app_length).
  split; [lia|]. split; [|cbn [key_mic]; now rewrite Lmic].
  unfold ok_key_frame, u16, u64. cbn [key_information key_length key_replay_counter key_nonce key_iv key_rsc key_mic key_data].
  repeat (split; [assumption|]). lia.
Qed.
Lemma rd_key_frame_NP akm : NoPanic (rd_key_frame akm).
Proof.
  intros from. unfold rd_key_frame. cbv zeta. destruct (key_mic_len akm); np; repeat match goal with |- context [if ?b then _ else _] => destruct b end; discriminate.
Qed.
Lemma before_eapol_length h oui et : ok_data_header h -> length oui = 3 -> length (before_eapol h oui et) = dh_length h + 8.
Proof. intros H O. unfold before_eapol, enc_snap, enc_fcf. pose proof (enc_data_header_length h H). lens. lia. Qed.
(** a data frame that carries a key frame *)
Lemma eapol_data_W h oui et (k : KeyFrame Container) kd : ok_data_header h ->
  length oui = 3 -> wf_bytes oui -> ok_key_frame (with_data k kd) -> Writes (c_write (key_data k)) kd ->
  Writes (wr_data (eapol_data (h, Some (mkSnap oui et k))) false) (enc_eapol h oui et (with_data k kd)).
Proof.
  intros H LO WO OK W. unfold eapol_data, enc_eapol. cbn [fst snd snap_oui snap_ether_type snap_payload].
  destruct (wr_data_any_W h (Some (c_snap (mkSnap oui et (c_key_frame k)))) (enc_snap oui et ++ enc_key_frame (with_data k kd)) false H) as (A & _); [|exact A].
  now apply c_snap_W, wr_key_frame_W.
Qed.
(** ** The ranges *)
Lemma eapol_ranges h oui et (k : KeyFrame Container) kd : ok_data_header h -> length oui = 3 -> length (key_nonce k) = 32 ->
  let d := (h, Some (mkSnap oui et k)) in let frame := enc_eapol h oui et (with_data k kd) in
  (exists a b, eapol_mic_range d = Some (a, b) /\ b <= length frame /\ between_bytes frame a b = key_mic k) /\
  (exists a b, eapol_key_data_length_range d = Some (a, b) /\ b <= length frame /\ between_bytes frame a b = be_bytes 2 (N.of_nat (length kd))) /\
  (exists a, eapol_key_data_range d = Some a /\ skipn a frame = kd).
Proof.
  intros H O Ln. cbv zeta. rewrite enc_eapol_eq, enc_key_frame_eq. cbn [with_data key_mic key_data].
  pose proof (before_eapol_length h oui et H O) as L1.
  pose proof (before_mic_length (with_data k kd) (length (enc_key_body (with_data k kd))) Ln) as L2.
  set (p := before_eapol h oui et) in *. set (q := before_mic _ _) in *. clearbody p q.
  unfold eapol_mic_range, eapol_key_data_length_range, eapol_key_data_range. cbn [fst snd snap_payload].
  split; [|split].
  - do 2 eexists. split; [reflexivity|]. split; [lens; lia|]. rewrite app_assoc.
    replace (dh_length h + 8 + 1 + 1 + 2 + 1 + 2 + 2 + 8 + 32 + 16 + 8 + 8) with (length (p ++ q)) by (lens; lia). apply between_app.
  - do 2 eexists. split; [reflexivity|]. split; [lens; lia|]. rewrite !app_assoc.
    replace (dh_length h + 8 + 1 + 1 + 2 + 1 + 2 + 2 + 8 + 32 + 16 + 8 + 8 + length (key_mic k)) with (length ((p ++ q) ++ key_mic k)) by (lens; lia).
    rewrite <- (app_assoc ((p ++ q) ++ key_mic k)). change 2 with (length (be_bytes 2 (N.of_nat (length kd)))) at 3. apply between_app.
  - eexists. split; [reflexivity|]. rewrite !app_assoc. apply skipn_app_exact. lens. lia.
Qed.
(** key data that does not fit into the length field *)
Lemma key_data_too_long (k : KeyFrame bytes) : N.of_nat (length (key_data k)) = 65536%N -> length (key_nonce k) = 32 ->
  between_bytes (enc_key_frame k) (81 + length (key_mic k)) (81 + length (key_mic k) + 2) = [0; 0]%N.
Proof.
  intros E L. rewrite enc_key_frame_eq. rewrite E. pose proof (before_mic_length k (length (enc_key_body k)) L) as L2. set (q := before_mic _ _) in *. clearbody q.
  change (be_bytes 2 65536) with [0; 0]%N. rewrite app_assoc. replace (81 + length (key_mic k)) with (length (q ++ key_mic k)) by (lens; lia).
  change 2 with (length [0; 0]%N) at 1. apply between_app.
Qed.
Lemma too_long_frame (k : KeyFrame bytes) : N.of_nat (length (key_data k)) = 65536%N -> length (key_nonce k) = 32 ->
  enc_key_frame k = enc_key_frame (with_data k []) ++ key_data k.
Proof.
  intros E L. rewrite !enc_key_frame_eq. cbn [with_data key_mic key_data length app]. rewrite E, app_nil_r, <- !app_assoc. f_equal.
  unfold before_mic. do 2 f_equal. rewrite !enc_key_body_length by exact L. cbn [with_data key_mic key_data length].
  rewrite <- be2_mod, <- (be2_mod (N.of_nat (77 + length (key_mic k) + 2 + 0))). f_equal. lia.
Qed.
Lemma too_long_read akm (k : KeyFrame bytes) : strict_end = false -> N.of_nat (length (key_data k)) = 65536%N ->
  ok_key_frame (with_data k []) -> key_mic_len akm = Some (length (key_mic k)) ->
  exists n, rd_key_frame akm (enc_key_frame k) = Ok (with_data k [], n).
Proof.
  intros SE E H M. rewrite too_long_frame by (try exact E; apply H). eexists. apply rd_key_frame_R; [exact H|exact M|left; exact SE].
Qed.
Lemma too_long akm (k : KeyFrame bytes) :
  N.of_nat (length (key_data k)) = 65536%N -> ok_key_frame (with_data k []) -> key_mic_len akm = Some (length (key_mic k)) ->
  strict_end = false ->
  Writes (wr_key_frame (with_data k (c_bytes (key_data k)))) (enc_key_frame k) /\
  between_bytes (enc_key_frame k) (81 + length (key_mic k)) (81 + length (key_mic k) + 2) = [0; 0]%N /\
  exists n, rd_key_frame akm (enc_key_frame k) = Ok (with_data k [], n).
Proof.
  intros E H M SE. split; [|split; [apply key_data_too_long; [exact E|apply H]|now apply too_long_read]].
  replace (enc_key_frame k) with (enc_key_frame (with_data (with_data k (c_bytes (key_data k))) (key_data k))) by (destruct k; reflexivity).
  apply wr_key_frame_W. apply c_bytes_T.
Qed.
End F.
Lemma too_long_ex : exists k : KeyFrame bytes, N.of_nat (length (key_data k)) = 65536%N /\ ok_key_frame (with_data k ([] : bytes)) /\
  key_mic_len Ak_Psk = Some (length (key_mic k)).
Proof.
  exists (mkKF 0 16 2 (repeat 7%N 32) 5 9 (repeat 0%N 16) (repeat 0%N (N.to_nat 65536))). split; [|split].
  - cbn [key_data]. rewrite repeat_length. apply Nnat.N2Nat.id.
  - cbn [with_data]. repeat split; try (cbn; lia); cbn; repeat constructor.
  - reflexivity.
Qed.
Lemma ex_key_frame_ok : let k := mkKF 0x13ca 16 2 (repeat 7%N 32) 5 9 (repeat 0%N 16) [0xdd; 0x16; 1; 2]%N in
  ok_key_frame k /\ key_mic_len Ak_Psk = Some (length (key_mic k)) /\
  ok_data_header (dhdr Dt_Data 2 None None None) /\ std_has_payload (subtype_number (dhdr Dt_Data 2 None None None)) = true.
Proof. cbv zeta. split; [repeat split; try (cbn; lia); cbn; repeat constructor|]. split; [reflexivity|]. split; [repeat split; cbn; repeat constructor; lia|reflexivity]. Qed.
