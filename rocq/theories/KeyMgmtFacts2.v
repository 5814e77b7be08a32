(** Facts about [serialize_eapol_data_frame]. *)
From Verif Require Import Base SpecBase BaseFacts StepsFacts Bits BitsFacts Layouts Enums Common CommonFacts Mgmt SpecMgmt MgmtFacts2 SpecElementTypes ElementTypesFacts
  Suites Rsn Data SpecData DataFacts DataFacts2 Eapol SpecEapol EapolFacts KeyMgmt SpecKeyMgmt KeyMgmtFacts.
From Coq Require Import ZifyNat.
Ltac Zify.zify_post_hook ::= Z.div_mod_to_equations.
Local Ltac lens := rewrite ?app_length, ?le_bytes_length, ?be_bytes_length, ?ne_bytes_length, ?repeat_length; cbn [length].

Lemma ki_key_mic_bit ki : ki_key_mic ki = N.testbit ki 8.
Proof. now apply lgetb_bit. Qed.
Lemma ki_encrypted_bit ki : ki_encrypted_key_data ki = N.testbit ki 12.
Proof. now apply lgetb_bit. Qed.

Lemma padding_spec kd : kd ++ padding (padded_key_data_length (length kd) - length kd) = pad_key_data kd.
Proof.
  unfold pad_key_data, padding. f_equal.
  replace (padded_key_data_length (length kd)) with (Nat.max 16 (8 * ((length kd + 7) / 8))); [reflexivity|].
  unfold padded_key_data_length. destruct (Nat.ltb_spec (length kd) 16); [lia|]. destruct (Nat.eqb_spec (length kd mod 8) 0); cbn [negb]; lia.
Qed.
Lemma padded_length_ge n : n <= padded_key_data_length n /\ 16 <= padded_key_data_length n /\ padded_key_data_length n mod 8 = 0 /\ padded_key_data_length n <= n + 16.
Proof. unfold padded_key_data_length. destruct (Nat.ltb_spec n 16); [cbn; lia|]. destruct (Nat.eqb_spec (n mod 8) 0); cbn [negb]; lia. Qed.
Lemma padding_length n : length (padding n) = n.
Proof. destruct n; [reflexivity|]. cbn [padding length]. now rewrite repeat_length. Qed.
Lemma pad_key_data_length kd : length (pad_key_data kd) = padded_key_data_length (length kd).
Proof. rewrite <- padding_spec, app_length, padding_length. pose proof (padded_length_ge (length kd)). lia. Qed.
Lemma pad_key_data_wf kd : wf_bytes kd -> wf_bytes (pad_key_data kd).
Proof.
  intros W. unfold pad_key_data. apply wf_bytes_app. split; [exact W|]. destruct (_ - _); [constructor|]. constructor; [lia|].
  apply Forall_forall. intros x I. apply repeat_spec in I. subst. lia.
Qed.

Lemma overwrite_app a b c b' : length b' = length b -> overwrite (a ++ b ++ c) (length a) b' = a ++ b' ++ c.
Proof.
  intros L. unfold overwrite. rewrite firstn_app_exact by reflexivity. do 2 f_equal. rewrite app_assoc. apply skipn_app_exact. lens. lia.
Qed.
Section F.
Context {cfg : Cfg}.
Lemma pwrite_app a b c b' : length b' = length b -> b <> [] -> pwrite (wr_bytes b') (a ++ b ++ c) (length a) = Ok (a ++ b' ++ c, length b).
Proof.
  intros L Nb. assert (length b <> 0) by (destruct b; [congruence|discriminate]).
  unfold pwrite, gwrite. rewrite end_bad_lt by (lens; lia). rewrite skipn_app_exact, firstn_app_exact by reflexivity.
  unfold wr_bytes. destruct (Nat.ltb_spec (length (b ++ c)) (length b')) as [X|_]; [rewrite app_length in X; lia|].
  rewrite skipn_app_exact by exact L. do 2 f_equal. lia.
Qed.
Lemma slice_app {E} a b c : @slice E (a ++ b ++ c) (length a) (length a + length b) = Ok b.
Proof.
  unfold slice. destruct (Nat.leb_spec (length a) (length a + length b)) as [_|]; [|lia].
  destruct (Nat.leb_spec (length a + length b) (length (a ++ b ++ c))) as [_|X]; [|rewrite !app_length in X; lia]. cbn [andb].
  rewrite skipn_app_exact by reflexivity. rewrite firstn_app_exact by lia. reflexivity.
Qed.
Lemma slice_from_app {E} a b : @slice_from E (a ++ b) (length a) = Ok b.
Proof. rewrite slice_from_ok by (lens; lia). now rewrite skipn_app_exact. Qed.
Lemma get_range_app b c : get_range (b ++ c) 0 (length b) = Some b.
Proof.
  unfold get_range. cbn [Nat.leb andb]. destruct (Nat.leb_spec (length b) (length (b ++ c))) as [_|X]; [|rewrite app_length in X; lia].
  cbn [skipn]. rewrite Nat.sub_0_r, firstn_app_exact; reflexivity.
Qed.

(** the pieces of a frame in a buffer *)
Definition asm (p : bytes) (len : N) (f mic : bytes) (dlen : N) (data t : bytes) : bytes :=
  p ++ [2; 3]%N ++ be_bytes 2 len ++ f ++ mic ++ be_bytes 2 dlen ++ data ++ t.
Lemma asm_enc h oui et k t : enc_eapol h oui et k ++ t =
  asm (before_eapol h oui et) (N.of_nat (length (enc_key_body k))) (enc_key_fields k) (key_mic k) (N.of_nat (length (key_data k))) (key_data k) t.
Proof. rewrite enc_eapol_eq, enc_key_frame_eq. unfold asm, before_mic. now rewrite <- !app_assoc. Qed.
Lemma asm_data p len f mic dlen data t : exists a, asm p len f mic dlen data t = a ++ data ++ t /\ length a = length p + 4 + length f + length mic + 2 /\
  forall data' t', asm p len f mic dlen data' t' = a ++ data' ++ t'.
Proof.
  exists (p ++ [2; 3]%N ++ be_bytes 2 len ++ f ++ mic ++ be_bytes 2 dlen). unfold asm. split; [|split].
  - now rewrite <- !app_assoc.
  - lens. lia.
  - intros. now rewrite <- !app_assoc.
Qed.
Lemma asm_dlen p len f mic dlen data t : exists a, asm p len f mic dlen data t = a ++ be_bytes 2 dlen ++ (data ++ t) /\ length a = length p + 4 + length f + length mic /\
  forall dlen', asm p len f mic dlen' data t = a ++ be_bytes 2 dlen' ++ (data ++ t).
Proof.
  exists (p ++ [2; 3]%N ++ be_bytes 2 len ++ f ++ mic). unfold asm. split; [|split].
  - now rewrite <- !app_assoc.
  - lens. lia.
  - intros. now rewrite <- !app_assoc.
Qed.
Lemma asm_mic p len f mic dlen data t : exists a b, asm p len f mic dlen data t = a ++ mic ++ b /\ length a = length p + 4 + length f /\
  forall mic', asm p len f mic' dlen data t = a ++ mic' ++ b.
Proof.
  exists (p ++ [2; 3]%N ++ be_bytes 2 len ++ f), (be_bytes 2 dlen ++ data ++ t). unfold asm. split; [|split].
  - now rewrite <- !app_assoc.
  - lens. lia.
  - intros. now rewrite <- !app_assoc.
Qed.
Lemma asm_len p len f mic dlen data t : exists a b, asm p len f mic dlen data t = a ++ be_bytes 2 len ++ b /\ length a = length p + 2 /\
  forall len', asm p len' f mic dlen data t = a ++ be_bytes 2 len' ++ b.
Proof.
  exists (p ++ [2; 3]%N), (f ++ mic ++ be_bytes 2 dlen ++ data ++ t). unfold asm. split; [|split].
  - now rewrite <- !app_assoc.
  - lens. lia.
  - intros. now rewrite <- !app_assoc.
Qed.
Lemma asm_overwrite_data p len f mic dlen data t data' n : length data' = length data -> n = length p + 4 + length f + length mic + 2 ->
  overwrite (asm p len f mic dlen data t) n data' = asm p len f mic dlen data' t.
Proof. intros L ->. destruct (asm_data p len f mic dlen data t) as (a & E & La & E'). rewrite E, E', <- La. now apply overwrite_app. Qed.
Lemma asm_overwrite_mic p len f mic dlen data t mic' n : length mic' = length mic -> n = length p + 4 + length f ->
  overwrite (asm p len f mic dlen data t) n mic' = asm p len f mic' dlen data t.
Proof. intros L ->. destruct (asm_mic p len f mic dlen data t) as (a & b & E & La & E'). rewrite E, E', <- La. now apply overwrite_app. Qed.
Lemma asm_write_dlen p len f mic dlen data t dlen' n : n = length p + 4 + length f + length mic ->
  pwrite (wr_be 2 dlen') (asm p len f mic dlen data t) n = Ok (asm p len f mic dlen' data t, 2).
Proof. intros ->. destruct (asm_dlen p len f mic dlen data t) as (a & E & La & E'). rewrite E, E', <- La. unfold wr_be. now apply pwrite_app. Qed.
Lemma asm_write_len p len f mic dlen data t len' n : n = length p + 2 ->
  pwrite (wr_be 2 len') (asm p len f mic dlen data t) n = Ok (asm p len' f mic dlen data t, 2).
Proof. intros ->. destruct (asm_len p len f mic dlen data t) as (a & b & E & La & E'). rewrite E, E', <- La. unfold wr_be. now apply pwrite_app. Qed.
Lemma asm_slice_dlen {E} p len f mic dlen data t n m : n = length p + 4 + length f + length mic -> m = n + 2 ->
  @slice E (asm p len f mic dlen data t) n m = Ok (be_bytes 2 dlen).
Proof.
  intros -> ->. destruct (asm_dlen p len f mic dlen data t) as (a & E1 & La & _). rewrite E1, <- La.
  change 2 with (length (be_bytes 2 dlen)) at 2. apply slice_app.
Qed.
Lemma asm_slice_mic {E} p len f mic dlen data t n m : n = length p + 4 + length f -> m = n + length mic ->
  @slice E (asm p len f mic dlen data t) n m = Ok mic.
Proof. intros -> ->. destruct (asm_mic p len f mic dlen data t) as (a & b & E1 & La & _). rewrite E1, <- La. apply slice_app. Qed.
Lemma asm_from_data {E} p len f mic dlen data t n : n = length p + 4 + length f + length mic + 2 ->
  @slice_from E (asm p len f mic dlen data t) n = Ok (data ++ t).
Proof. intros ->. destruct (asm_data p len f mic dlen data t) as (a & E1 & La & _). rewrite E1, <- La. apply slice_from_app. Qed.
Lemma asm_slice_eapol {E} p len f mic dlen data t n : n = length p + 4 + length f + length mic + 2 + length data ->
  @slice E (asm p len f mic dlen data t) (length p) n = Ok ([2; 3]%N ++ be_bytes 2 len ++ f ++ mic ++ be_bytes 2 dlen ++ data).
Proof.
  intros ->. unfold asm. set (b := [2; 3]%N ++ be_bytes 2 len ++ f ++ mic ++ be_bytes 2 dlen ++ data).
  replace (length p + 4 + length f + length mic + 2 + length data) with (length p + length b) by (subst b; lens; lia).
  replace ([2; 3]%N ++ be_bytes 2 len ++ f ++ mic ++ be_bytes 2 dlen ++ data ++ t) with (b ++ t) by (subst b; now rewrite <- !app_assoc).
  apply slice_app.
Qed.

Section S.
Variable hmac : bytes -> bytes -> bytes.
Variable wrap : bytes -> bytes -> bytes.
Variable unwrap : bytes -> bytes -> option bytes.
Hypothesis HM : hmac_sha1 hmac.
Hypothesis KW : key_wrap wrap unwrap.
Lemma sent_data_length kek info kd : length (sent_data wrap kek info kd) =
  (if N.testbit info 12 then match kd with [] => 0 | _ => padded_key_data_length (length kd) + 8 end else length kd).
Proof.
  unfold sent_data. destruct (N.testbit info 12); [|reflexivity]. destruct kd as [|b kd]; [reflexivity|].
  pose proof (padded_length_ge (length (b :: kd))). rewrite (kw_length _ _ KW) by (rewrite pad_key_data_length; lia). now rewrite pad_key_data_length.
Qed.
Lemma sent_data_le kek info kd : length kd <= length (sent_data wrap kek info kd).
Proof.
  rewrite sent_data_length. destruct (N.testbit info 12); [|lia]. destruct kd; [reflexivity|].
  match goal with |- length ?l <= _ => pose proof (padded_length_ge (length l)) end. lia.
Qed.
Theorem serialize_spec_fit kck kek kck_opt kek_opt h oui et (k : KeyFrame Container) kd buffer temp :
  ok_data_header h -> length oui = 3 -> wf_bytes oui ->
  Writes (c_write (key_data k)) kd -> ok_key_frame (with_data k kd) ->
  (has_mic (key_information k) -> kck_opt = Some kck /\ length (key_mic k) = 16) ->
  (has_encrypted_data (key_information k) -> kd <> [] -> kek_opt = Some kek) ->
  24 <= temp -> (has_encrypted_data (key_information k) -> length (sent_data wrap kek (key_information k) kd) <= temp) ->
  let sent := with_data k (sent_data wrap kek (key_information k) kd) in
  let frame := enc_eapol h oui et (with_mic sent (sent_mic hmac kck sent)) in
  length (enc_eapol h oui et (with_data k kd)) + slack <= length buffer -> length frame <= length buffer ->
  serialize_eapol hmac wrap kck_opt kek_opt (h, Some (mkSnap oui et k)) buffer temp = Ok (frame ++ skipn (length frame) buffer, length frame).
Proof.
  intros H LO WO W OK HC HK T24 T. cbv zeta. intros LB0 LB.
  set (kd' := sent_data wrap kek (key_information k) kd) in *.
  set (sent := with_data k kd') in *.
  assert (Lm : length (sent_mic hmac kck sent) = length (key_mic k)).
  { unfold sent_mic. change (key_information sent) with (key_information k). destruct (N.testbit (key_information k) 8) eqn:B; [|reflexivity].
    rewrite firstn_length, (hmac_length _ HM). destruct (HC B) as [_ ->]. reflexivity. }
  pose proof (before_eapol_length h oui et H LO) as Lp.
  pose proof (eapol_data_W h oui et k kd H LO WO OK W) as WW. pose proof (pwrite0_W _ _ WW) as PW.
  destruct OK as (_ & _ & _ & Ln & _ & _ & _ & _ & _ & LK). cbn [with_data key_nonce key_mic key_data] in Ln, LK.
  pose proof (sent_data_le kek (key_information k) kd) as LE. fold kd' in LE.
  (* lengths *)
  assert (Lframe : length (enc_eapol h oui et (with_mic sent (sent_mic hmac kck sent))) = dh_length h + 8 + 81 + length (key_mic k) + 2 + length kd').
  { rewrite enc_eapol_eq, app_length, Lp, enc_key_frame_length by exact Ln. cbn [with_mic sent with_data key_mic key_data]. rewrite Lm. lia. }
  assert (Lframe0 : length (enc_eapol h oui et (with_data k kd)) = dh_length h + 8 + 81 + length (key_mic k) + 2 + length kd).
  { rewrite enc_eapol_eq, app_length, Lp, enc_key_frame_length by exact Ln. cbn [with_data key_mic key_data]. lia. }
  rewrite Lframe in LB. rewrite Lframe0 in LB0.
  unfold serialize_eapol. rewrite (proj2 (Nat.ltb_ge _ _) T24). cbn [eapol_mic_range eapol_key_data_length_range eapol_key_data_range ok_or rbind fst snd snap_payload].
  cbv zeta. rewrite (writes_ok _ _ PW) by lia. cbn [map_err rbind].
  (* the buffer *)
  set (p := before_eapol h oui et) in *.
  set (f := enc_key_fields k).
  assert (Lf : length f = 77) by (apply enc_key_fields_length; exact Ln).
  remember (skipn (length (enc_eapol h oui et (with_data k kd))) buffer) as u eqn:Eu.
  assert (Lu : length u = length buffer - length (enc_eapol h oui et (with_data k kd))) by (subst u; apply skipn_length).
  assert (Etail : forall m n, length (enc_eapol h oui et (with_data k kd)) + m = n -> skipn m u = skipn n buffer).
  { intros m n E. subst u. rewrite skipn_skipn_add. f_equal. exact E. }
  clear Eu. rewrite Lframe0 in *. rewrite Lframe.
  rewrite asm_enc. fold p. change (enc_key_fields (with_data k kd)) with f. cbn [with_data key_mic key_data].
  rewrite asm_enc. fold p. change (enc_key_fields (with_mic sent (sent_mic hmac kck sent))) with f. cbn [with_mic key_mic key_data]. change (key_data sent) with kd'.
  rewrite !enc_key_body_length by exact Ln. cbn [with_mic with_data key_mic key_data]. change (key_data sent) with kd'. rewrite Lm.
  rewrite asm_slice_dlen by lia. cbn [rbind].
  unfold pread, gread. rewrite end_bad_lt by (rewrite be_bytes_length; lia). cbn [skipn].
  rewrite <- (app_nil_r (be_bytes 2 (N.of_nat (length kd)))), (rd_be_R 2) by (change (256 ^ N.of_nat 2)%N with 65536%N; lia).
  cbn [res_unwrap rbind]. rewrite Nnat.Nat2N.id. rewrite ki_encrypted_bit, ki_key_mic_bit.
  (* encryption *)
  match goal with |- rbind ?x _ = _ => assert (ENC : x = Ok (asm p (N.of_nat (77 + length (key_mic k) + 2 + length kd')) f (key_mic k) (N.of_nat (length kd')) kd'
     (skipn (dh_length h + 8 + 81 + length (key_mic k) + 2 + length kd') buffer), dh_length h + 8 + 81 + length (key_mic k) + 2 + length kd')) end.
  { subst kd'. pose proof (sent_data_length kek (key_information k) kd) as SL. unfold sent_data in *. unfold has_encrypted_data in *.
    destruct (N.testbit (key_information k) 12) eqn:B.
    2:{ rewrite andb_false_r. rewrite <- (Etail 0) by lia. reflexivity. }
    destruct kd as [|b kd0]; [cbn [length Nat.eqb negb andb]; rewrite <- (Etail 0) by (cbn [length]; lia); reflexivity|].
    assert (NE : b :: kd0 <> []) by discriminate. remember (b :: kd0) as kd eqn:Ekd. clear Ekd.
    assert (Z : length kd <> 0) by (destruct kd; [congruence|discriminate]).
    destruct (Nat.eqb_spec (length kd) 0) as [|_]; [congruence|]. cbn [negb andb].
    pose proof (padded_length_ge (length kd)) as (G1 & G2 & G3 & _). set (P := padded_key_data_length (length kd)) in *.
    rewrite asm_from_data by lia. cbn [rbind].
    (* the room behind the frame *)
    assert (X1 : firstn (P - length kd) u ++ firstn 8 (skipn (P - length kd) u) ++ skipn (P - length kd + 8) u = u).
    { rewrite <- (skipn_skipn_add u 8). now rewrite !firstn_skipn. }
    set (x1 := firstn (P - length kd) u) in *. set (x2 := firstn 8 (skipn (P - length kd) u)) in *. set (x3 := skipn (P - length kd + 8) u) in *.
    assert (Lx1 : length x1 = P - length kd) by (subst x1; rewrite firstn_length; lia).
    assert (Lx2 : length x2 = 8) by (subst x2; rewrite firstn_length, skipn_length; lia).
    assert (X3 : x3 = skipn (dh_length h + 8 + 81 + length (key_mic k) + 2 + length (wrap kek (pad_key_data kd))) buffer) by (apply Etail; lia).
    rewrite <- X3. rewrite <- X1. clearbody x1 x2 x3.
    rewrite (app_assoc kd x1). replace P with (length (kd ++ x1)) at 1 by (lens; lia). rewrite get_range_app. cbn [ok_or rbind].
    rewrite firstn_app_exact by reflexivity. unfold P. rewrite padding_spec. fold P.
    replace (asm p (N.of_nat (77 + length (key_mic k) + 2 + length kd)) f (key_mic k) (N.of_nat (length kd)) kd (x1 ++ x2 ++ x3))
      with (asm p (N.of_nat (77 + length (key_mic k) + 2 + length kd)) f (key_mic k) (N.of_nat (length kd)) (kd ++ x1) (x2 ++ x3))
      by (unfold asm; now rewrite <- !app_assoc).
    rewrite asm_overwrite_data by (try (rewrite pad_key_data_length; fold P); lens; lia).
    rewrite (HK eq_refl NE). cbn [ok_or rbind]. specialize (T eq_refl).
    destruct (Nat.ltb_spec temp (P + 8)) as [|_]; [lia|].
    rewrite asm_from_data by lia. cbn [rbind]. rewrite app_assoc.
    assert (Lpx : length (pad_key_data kd ++ x2) = P + 8) by (lens; rewrite pad_key_data_length; fold P; lia).
    rewrite <- Lpx at 1. rewrite get_range_app. cbn [ok_or rbind].
    replace (asm p (N.of_nat (77 + length (key_mic k) + 2 + length kd)) f (key_mic k) (N.of_nat (length kd)) (pad_key_data kd) (x2 ++ x3))
      with (asm p (N.of_nat (77 + length (key_mic k) + 2 + length kd)) f (key_mic k) (N.of_nat (length kd)) (pad_key_data kd ++ x2) x3)
      by (unfold asm; now rewrite <- !app_assoc).
    rewrite asm_overwrite_data by lia. rewrite asm_write_dlen by lia. rewrite asm_write_len by lia.
    rewrite SL. f_equal. f_equal; [|lia]. unfold asm. rewrite !be2_mod. do 4 f_equal. }
  rewrite ENC. cbn [rbind]. clear ENC.
  unfold sent_mic. change (key_information sent) with (key_information k).
  destruct (N.testbit (key_information k) 8) eqn:B; [|reflexivity].
  destruct (HC B) as [-> M16]. cbn [ok_or rbind]. rewrite <- Lp.
  rewrite asm_slice_eapol by lia. cbn [rbind]. rewrite asm_slice_mic by lia. cbn [rbind].
  match goal with |- (if ?a =? 16 then _ else _) = _ => replace a with 16 by lia end. cbn [Nat.eqb].
  rewrite asm_overwrite_mic by (try (rewrite firstn_length, (hmac_length _ HM)); lia).
  f_equal. f_equal. unfold asm. do 4 f_equal. rewrite enc_key_frame_eq. unfold before_mic.
  rewrite enc_key_body_length by exact Ln. cbn [sent with_data key_mic key_data]. now rewrite <- !app_assoc.
Qed.
Theorem serialize_spec kck kek kck_opt kek_opt h oui et (k : KeyFrame Container) kd buffer temp :
  ok_data_header h -> length oui = 3 -> wf_bytes oui ->
  Writes (c_write (key_data k)) kd -> ok_key_frame (with_data k kd) ->
  (has_mic (key_information k) -> kck_opt = Some kck /\ length (key_mic k) = 16) ->
  (has_encrypted_data (key_information k) -> kd <> [] -> kek_opt = Some kek) ->
  24 <= temp -> (has_encrypted_data (key_information k) -> length (sent_data wrap kek (key_information k) kd) <= temp) ->
  let sent := with_data k (sent_data wrap kek (key_information k) kd) in
  let frame := enc_eapol h oui et (with_mic sent (sent_mic hmac kck sent)) in
  length frame + slack <= length buffer ->
  serialize_eapol hmac wrap kck_opt kek_opt (h, Some (mkSnap oui et k)) buffer temp = Ok (frame ++ skipn (length frame) buffer, length frame).
Proof.
  intros H LO WO W OK HC HK T24 T sent frame LB. apply serialize_spec_fit; auto; [|fold sent; fold frame; lia].
  assert (Ln : length (key_nonce k) = 32) by (destruct OK as (_ & _ & _ & Ln & _); exact Ln).
  assert (Lm : length (sent_mic hmac kck sent) = length (key_mic k)).
  { unfold sent_mic. change (key_information sent) with (key_information k). destruct (N.testbit (key_information k) 8) eqn:B; [|reflexivity].
    rewrite firstn_length, (hmac_length _ HM). destruct (HC B) as [_ ->]. reflexivity. }
  pose proof (sent_data_le kek (key_information k) kd) as LE. revert LB. unfold frame.
  rewrite !enc_eapol_eq, !app_length, !enc_key_frame_length by exact Ln. cbn [with_mic sent with_data key_mic key_data]. fold sent. rewrite Lm. lia.
Qed.
End S.
End F.
