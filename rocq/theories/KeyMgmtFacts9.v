(** What [serialize_eapol_data_frame] leaves in the caller's buffer. *)
From Verif Require Import Base SpecBase BaseFacts StepsFacts Bits BitsFacts Layouts Enums Common CommonFacts Mgmt SpecMgmt MgmtFacts2 SpecElementTypes ElementTypesFacts
  Suites Rsn Data SpecData DataFacts DataFacts2 Eapol SpecEapol EapolFacts KeyMgmt SpecKeyMgmt KeyMgmtFacts KeyMgmtFacts2 KeyMgmtFacts6 KeyMgmtFacts7 KeyMgmtState Sha1 Aes AesFacts.
Local Ltac lens := rewrite ?app_length, ?le_bytes_length, ?be_bytes_length, ?ne_bytes_length, ?repeat_length; cbn [length].

Section F.
Context {cfg : Cfg}.
Variable hmac : bytes -> bytes -> bytes.
Variable wrap : bytes -> bytes -> bytes.

(** ** The same result *)
Lemma serialize_in_place_result kck kek d buffer temp torn :
  serialize_eapol hmac wrap kck kek d buffer temp =
  match serialize_in_place hmac wrap kck kek d buffer temp torn with
  | (Ok n, b) => Ok (b, n) | (Err e, _) => Err e | (Panic, _) => Panic
  end.
Proof.
  unfold serialize_eapol, serialize_in_place. destruct (temp <? 24); [reflexivity|]. destruct d as [h [s|]]; [|reflexivity].
  cbn [eapol_mic_range eapol_key_data_length_range eapol_key_data_range ok_or rbind fst snd snap_payload]. cbv zeta.
  destruct (pwrite (wr_data (eapol_data (h, Some s)) false) buffer 0) as [[b w]| |]; cbn [map_err rbind]; try reflexivity.
  match goal with |- context [slice b ?x ?y] => destruct (@slice EapolSerdeError b x y) as [field| |]; cbn [rbind]; try reflexivity end.
  destruct (res_unwrap (pread (rd_be 2) field 0)) as [dl| |]; cbn [rbind]; try reflexivity.
  set (c := negb (N.to_nat dl =? 0) && _). clearbody c.
  match goal with |- context [if c then encrypt_in_place wrap kek b w ?a1 ?a2 ?a3 ?a4 ?a5 temp else _] => set (enc := encrypt_in_place wrap kek b w a1 a2 a3 a4 a5 temp) end.
  match goal with |- rbind (if c then ?x else _) _ = _ => assert (E : x = match enc with (Ok n, b') => Ok (b', n) | (Err e, _) => Err e | (Panic, _) => Panic end) end.
  { subst enc. unfold encrypt_in_place.
    destruct (slice_from b _) as [rest| |]; cbn [rbind]; try reflexivity.
    destruct (get_range rest 0 _) as [data|]; cbn [ok_or rbind]; try reflexivity.
    destruct kek as [kek|]; cbn [ok_or rbind]; try reflexivity.
    destruct (temp <? _); [reflexivity|].
    destruct (slice_from (overwrite _ _ _) _) as [rest'| |]; cbn [rbind]; try reflexivity.
    destruct (get_range rest' 0 _) as [data'|]; cbn [ok_or rbind]; reflexivity. }
  rewrite E. clear E. clearbody enc.
  assert (S : forall b w ms me, (if ki_key_mic (key_information (snap_payload s)) then
      kck <- ok_or MissingKey kck ;; message <- slice b (dh_length h + 8) w ;;
      _ <- slice b ms me ;;
      if me - ms =? 16 then Ok (overwrite b ms (firstn 16 (hmac kck message)), w) else Panic else Ok (b, w)) =
    match (if ki_key_mic (key_information (snap_payload s)) then sign_in_place hmac kck b w (dh_length h + 8) ms me else (Ok w, b)) with
    | (Ok n, b) => Ok (b, n) | (Err e, _) => Err e | (Panic, _) => Panic end).
  { intros b' w' ms me. destruct (ki_key_mic _); [|reflexivity]. unfold sign_in_place. destruct kck as [kck|]; [|reflexivity]. cbn [ok_or rbind].
    destruct (slice b' _ w') as [m| |]; cbn [rbind]; try reflexivity.
    destruct (@slice EapolSerdeError b' ms me) as [x| |]; cbn [rbind]; try reflexivity.
    destruct (_ =? 16); reflexivity. }
  destruct c; [destruct enc as [[w'| |] b']; try reflexivity|]; cbn [rbind].
  - apply (S b' w').
  - apply (S b w).
Qed.

Variable unwrap : bytes -> bytes -> option bytes.
Hypothesis HM : hmac_sha1 hmac.
Hypothesis KW : key_wrap wrap unwrap.

(** ** The buffer *)
Lemma sign_after kck h oui et (sent : KeyFrame bytes) buffer w (x : bool) : ok_data_header h -> length oui = 3 -> length (key_nonce sent) = 32 ->
  let over s := s ++ skipn (length s) buffer in
  length (enc_eapol h oui et sent) <= length buffer -> w = length (enc_eapol h oui et sent) -> x = N.testbit (key_information sent) 8 ->
  snd (if x then sign_in_place hmac kck (over (enc_eapol h oui et sent)) w (dh_length h + 8) (dh_length h + 8 + 81) (dh_length h + 8 + 81 + length (key_mic sent))
       else (Ok w, over (enc_eapol h oui et sent))) =
  if N.testbit (key_information sent) 8 && (missing kck || negb (length (key_mic sent) =? 16)) then over (enc_eapol h oui et sent)
  else over (enc_eapol h oui et (with_mic sent (sent_mic hmac (the_key kck) sent))).
Proof.
  intros H LO Ln over LB Ew Ex. unfold sent_mic. rewrite <- Ex. clear Ex. destruct x; [|destruct sent; reflexivity].
  unfold sign_in_place. destruct kck as [kck|]; [|reflexivity]. cbn [missing orb andb the_key].
  pose proof (before_eapol_length h oui et H LO) as Lp.
  assert (Lf : length (enc_key_fields sent) = 77) by (apply enc_key_fields_length; exact Ln).
  assert (Lframe : length (enc_eapol h oui et sent) = dh_length h + 8 + 81 + length (key_mic sent) + 2 + length (key_data sent)).
  { rewrite enc_eapol_eq, app_length, Lp, enc_key_frame_length by exact Ln. lia. }
  unfold over. rewrite !asm_enc. rewrite <- Lp. rewrite asm_slice_eapol by lia. rewrite asm_slice_mic by lia.
  match goal with |- context [if ?a =? 16 then _ else _] => replace a with (length (key_mic sent)) by lia end.
  destruct (Nat.eqb_spec (length (key_mic sent)) 16) as [M|M]; cbn [negb snd]; [|reflexivity].
  rewrite asm_overwrite_mic by (try (rewrite firstn_length, (hmac_length _ HM)); lia).
  assert (EK : [2; 3]%N ++ be_bytes 2 (N.of_nat (length (enc_key_body sent))) ++ enc_key_fields sent ++ key_mic sent ++ be_bytes 2 (N.of_nat (length (key_data sent))) ++ key_data sent = enc_key_frame sent).
  { rewrite enc_key_frame_eq. unfold before_mic. now rewrite <- !app_assoc. }
  rewrite EK. set (mic' := firstn 16 _). assert (Lm : length mic' = 16) by (unfold mic'; rewrite firstn_length, (hmac_length _ HM); reflexivity). clearbody mic'.
  assert (L2 : length (enc_eapol h oui et (with_mic sent mic')) = length (enc_eapol h oui et sent)).
  { rewrite !enc_eapol_eq, !app_length, !enc_key_frame_length by exact Ln. cbn [with_mic key_mic key_data]. lia. }
  rewrite L2. change (enc_key_fields (with_mic sent mic')) with (enc_key_fields sent). cbn [with_mic key_mic key_data].
  rewrite !enc_key_body_length by exact Ln. cbn [with_mic key_mic key_data]. now rewrite Lm, M.
Qed.
Lemma after kck kek h oui et (k : KeyFrame Container) kd buffer temp torn :
  ok_data_header h -> length oui = 3 -> wf_bytes oui ->
  Writes (c_write (key_data k)) kd -> ok_key_frame (with_data k kd) ->
  length (enc_eapol h oui et (with_data k kd)) + slack <= length buffer ->
  snd (serialize_in_place hmac wrap kck kek (h, Some (mkSnap oui et k)) buffer temp torn) = buffer_after hmac wrap kck kek h oui et k kd buffer temp.
Proof.
  intros H LO WO W OK LB0.
  pose proof (before_eapol_length h oui et H LO) as Lp.
  pose proof (pwrite0_W _ _ (eapol_data_W h oui et k kd H LO WO OK W)) as PW.
  pose proof OK as (_ & _ & _ & Ln & _ & _ & _ & _ & _ & LK). cbn [with_data key_nonce key_mic key_data] in Ln, LK.
  assert (Lany : forall d : bytes, length (enc_eapol h oui et (with_data k d)) = dh_length h + 8 + 81 + length (key_mic k) + 2 + length d).
  { intros d. rewrite enc_eapol_eq, app_length, Lp, enc_key_frame_length by exact Ln. cbn [with_data key_mic key_data]. lia. }
  pose proof (padded_length_ge (length kd)) as (G1 & G2 & G3 & _).
  unfold serialize_in_place, buffer_after. destruct (Nat.ltb_spec temp 24) as [T24|T24]; [reflexivity|].
  cbn [eapol_mic_range eapol_key_data_length_range eapol_key_data_range fst snd snap_payload]. cbv zeta.
  rewrite (writes_ok _ _ PW) by lia. rewrite pad_key_data_length, ki_encrypted_bit, ki_key_mic_bit.
  assert (Lf : length (enc_key_fields k) = 77) by (apply enc_key_fields_length; exact Ln).
  set (over := fun s : bytes => s ++ skipn (length s) buffer).
  change (enc_eapol h oui et (with_data k kd) ++ skipn (length (enc_eapol h oui et (with_data k kd))) buffer) with (over (enc_eapol h oui et (with_data k kd))).
  match goal with |- context [slice (over _) ?x ?y] => assert (FL : @slice EapolSerdeError (over (enc_eapol h oui et (with_data k kd))) x y = Ok (be_bytes 2 (N.of_nat (length kd)))) end.
  { unfold over. rewrite asm_enc. change (enc_key_fields (with_data k kd)) with (enc_key_fields k). cbn [with_data key_mic key_data]. apply asm_slice_dlen; lia. }
  rewrite FL. clear FL. cbn [rbind].
  assert (RD : pread (rd_be 2) (be_bytes 2 (N.of_nat (length kd))) 0 = Ok (N.of_nat (length kd))).
  { unfold pread, gread. rewrite end_bad_lt by (rewrite be_bytes_length; lia). cbn [skipn].
    rewrite <- (app_nil_r (be_bytes 2 (N.of_nat (length kd)))), (rd_be_R 2) by (change (256 ^ N.of_nat 2)%N with 65536%N; lia). reflexivity. }
  rewrite RD. clear RD. cbn [res_unwrap]. rewrite Nnat.Nat2N.id.
  set (P := padded_key_data_length (length kd)) in *.
  replace (length (enc_eapol h oui et (with_data k kd)) - length kd) with (dh_length h + 8 + 81 + length (key_mic k) + 2) by (rewrite Lany; lia).
  match goal with |- context [sign_in_place hmac kck _ _ _ ?ms ?me] =>
    replace me with (dh_length h + 8 + 81 + length (key_mic k)) by lia; replace ms with (dh_length h + 8 + 81) by lia end.
  match goal with |- context [encrypt_in_place wrap kek _ _ ?a ?b _ _ _ _] =>
    replace b with (dh_length h + 8 + 81 + length (key_mic k) + 2) by lia; replace a with (dh_length h + 8 + 81 + length (key_mic k)) by lia end.
  rewrite (andb_comm (N.testbit _ 12)).
  assert (SG : forall d w (kek : option bytes), d = sent_data wrap (the_key kek) (key_information k) kd -> length (enc_eapol h oui et (with_data k d)) <= length buffer ->
    w = length (enc_eapol h oui et (with_data k d)) ->
    snd (if N.testbit (key_information k) 8 then sign_in_place hmac kck (over (enc_eapol h oui et (with_data k d))) w (dh_length h + 8) (dh_length h + 8 + 81) (dh_length h + 8 + 81 + length (key_mic k))
         else (Ok w, over (enc_eapol h oui et (with_data k d)))) =
    if N.testbit (key_information k) 8 && (missing kck || negb (length (key_mic k) =? 16)) then over (enc_eapol h oui et (with_data k (sent_data wrap (the_key kek) (key_information k) kd)))
    else over (enc_eapol h oui et (with_mic (with_data k (sent_data wrap (the_key kek) (key_information k) kd)) (sent_mic hmac (the_key kck) (with_data k (sent_data wrap (the_key kek) (key_information k) kd)))))).
  { intros d w kk <- L ->. apply (sign_after kck h oui et (with_data k d) buffer); auto. }
  destruct (negb (length kd =? 0) && N.testbit (key_information k) 12) eqn:Enc; cbn [andb].
  2:{ apply SG; [|lia|reflexivity]. unfold sent_data. destruct (N.testbit (key_information k) 12); [|reflexivity].
      rewrite andb_true_r in Enc. destruct kd; [reflexivity|discriminate]. }
  apply andb_true_iff in Enc. destruct Enc as [Z B]. apply negb_true_iff, Nat.eqb_neq in Z.
  assert (ES : forall kk, sent_data wrap kk (key_information k) kd = wrap kk (pad_key_data kd)).
  { intros kk. unfold sent_data. rewrite B. destruct kd; [now destruct Z|reflexivity]. }
  unfold encrypt_in_place. fold P.
  set (hd := dh_length h + 8 + 81 + length (key_mic k) + 2) in *.
  set (u := skipn (length (enc_eapol h oui et (with_data k kd))) buffer).
  assert (Lu : length u = length buffer - (hd + length kd)) by (unfold u; rewrite skipn_length, Lany; reflexivity).
  set (f := enc_key_fields k) in *. set (p := before_eapol h oui et) in *.
  assert (EO : over (enc_eapol h oui et (with_data k kd)) = asm p (N.of_nat (77 + length (key_mic k) + 2 + length kd)) f (key_mic k) (N.of_nat (length kd)) kd u).
  { unfold over. fold u. rewrite asm_enc. fold p. change (enc_key_fields (with_data k kd)) with f. rewrite enc_key_body_length by exact Ln. reflexivity. }
  assert (ER : @slice_from EapolSerdeError (over (enc_eapol h oui et (with_data k kd))) hd = Ok (kd ++ u)).
  { rewrite EO. apply asm_from_data. unfold hd. lia. }
  rewrite ER. clear ER.
  assert (LB1 : hd + length kd + slack <= length buffer) by (rewrite Lany in LB0; exact LB0).
  destruct (Nat.ltb_spec (length buffer) (hd + P)) as [R1|R1].
  { rewrite get_range_short by (lens; lia). reflexivity. }
  rewrite get_range_long by (lens; lia).
  (* the room behind the frame *)
  rewrite firstn_firstn, Nat.min_l, firstn_app_exact by (reflexivity || lia). unfold P. rewrite padding_spec. fold P.
  set (x1 := firstn (P - length kd) u). set (x2 := skipn (P - length kd) u).
  assert (X : u = x1 ++ x2) by (unfold x1, x2; now rewrite firstn_skipn).
  assert (Lx1 : length x1 = P - length kd) by (unfold x1; rewrite firstn_length; lia).
  assert (EP : overwrite (over (enc_eapol h oui et (with_data k kd))) hd (pad_key_data kd) =
    asm p (N.of_nat (77 + length (key_mic k) + 2 + length kd)) f (key_mic k) (N.of_nat (length kd)) (pad_key_data kd) x2).
  { rewrite EO, X. replace (asm p (N.of_nat (77 + length (key_mic k) + 2 + length kd)) f (key_mic k) (N.of_nat (length kd)) kd (x1 ++ x2))
      with (asm p (N.of_nat (77 + length (key_mic k) + 2 + length kd)) f (key_mic k) (N.of_nat (length kd)) (kd ++ x1) x2) by (unfold asm; now rewrite <- !app_assoc).
    apply asm_overwrite_data; [rewrite pad_key_data_length; fold P; lens; lia|unfold hd; lia]. }
  assert (EQ : over (enc_eapol h oui et (with_data k kd) ++ skipn (length kd) (pad_key_data kd)) =
    asm p (N.of_nat (77 + length (key_mic k) + 2 + length kd)) f (key_mic k) (N.of_nat (length kd)) (pad_key_data kd) x2).
  { assert (PD : pad_key_data kd = kd ++ skipn (length kd) (pad_key_data kd)).
    { rewrite <- (firstn_skipn (length kd) (pad_key_data kd)) at 1. f_equal. rewrite <- padding_spec. now apply firstn_app_exact. }
    unfold over. rewrite <- app_assoc, asm_enc. fold p. change (enc_key_fields (with_data k kd)) with f. rewrite enc_key_body_length by exact Ln. cbn [with_data key_mic key_data].
    replace x2 with (skipn (length (enc_eapol h oui et (with_data k kd) ++ skipn (length kd) (pad_key_data kd))) buffer).
    - set (z := skipn (length (_ ++ _)) buffer). clearbody z. unfold asm. rewrite (app_assoc kd), <- PD. reflexivity.
    - unfold x2, u. rewrite skipn_skipn_add. f_equal. rewrite app_length, skipn_length, pad_key_data_length. reflexivity. }
  rewrite EP, <- EQ. cbn [orb].
  destruct kek as [kek|]; [|reflexivity]. cbn [missing orb].
  destruct (Nat.ltb_spec temp (P + 8)) as [T|T]; [reflexivity|]. cbn [orb].
  rewrite EQ. rewrite asm_from_data by (unfold hd; lia).
  destruct (Nat.ltb_spec (length buffer) (hd + P + 8)) as [R2|R2].
  { rewrite get_range_short; [symmetry; exact EQ|]. rewrite app_length, pad_key_data_length. fold P. unfold x2. rewrite skipn_length. lia. }
  rewrite get_range_long by (rewrite app_length, pad_key_data_length; fold P; unfold x2; rewrite skipn_length; lia).
  assert (LW : length (wrap kek (pad_key_data kd)) = P + 8) by (rewrite (kw_length _ _ KW), pad_key_data_length; [reflexivity|rewrite pad_key_data_length; lia..]).
  set (y1 := firstn 8 x2). set (y2 := skipn 8 x2).
  assert (Y : x2 = y1 ++ y2) by (unfold y1, y2; now rewrite firstn_skipn).
  assert (Ly1 : length y1 = 8) by (unfold y1; rewrite firstn_length; unfold x2; rewrite skipn_length; lia).
  rewrite Y. replace (asm p (N.of_nat (77 + length (key_mic k) + 2 + length kd)) f (key_mic k) (N.of_nat (length kd)) (pad_key_data kd) (y1 ++ y2))
    with (asm p (N.of_nat (77 + length (key_mic k) + 2 + length kd)) f (key_mic k) (N.of_nat (length kd)) (pad_key_data kd ++ y1) y2) by (unfold asm; now rewrite <- !app_assoc).
  rewrite asm_overwrite_data by ((rewrite app_length, pad_key_data_length; fold P; lia) || (unfold hd; lia)).
  rewrite asm_write_dlen by lia. rewrite asm_write_len by lia. cbn [orb].
  assert (EW : asm p (N.of_nat (77 + length (key_mic k) + 2 + (P + 8)) mod 65536) f (key_mic k) (N.of_nat (P + 8) mod 65536) (wrap kek (pad_key_data kd)) y2 =
    over (enc_eapol h oui et (with_data k (wrap kek (pad_key_data kd))))).
  { unfold over. rewrite asm_enc. fold p. change (enc_key_fields (with_data k (wrap kek (pad_key_data kd)))) with f. rewrite enc_key_body_length by exact Ln. cbn [with_data key_mic key_data].
    rewrite LW. unfold asm. rewrite !be2_mod. do 8 f_equal.
    unfold y2, x2, u. rewrite !skipn_skipn_add. f_equal. rewrite !Lany, LW. fold hd. lia. }
  rewrite EW. cbn [snd]. apply (SG _ _ (Some kek)); [symmetry; apply ES|rewrite Lany, LW; fold hd; lia|rewrite !Lany, LW; fold hd; lia].
Qed.

(** ** Consequences *)
Lemma untouched kck kek d buffer temp torn : temp < 24 \/ snd d = None ->
  snd (serialize_in_place hmac wrap kck kek d buffer temp torn) = buffer.
Proof.
  intros T. unfold serialize_in_place. destruct (Nat.ltb_spec temp 24) as [|G]; [reflexivity|]. destruct T as [T|T]; [lia|].
  destruct d as [h [s|]]; [discriminate|reflexivity].
Qed.
Lemma over_beyond (s buffer : bytes) n m : m = length s -> length s <= n -> length s <= length buffer ->
  length (s ++ skipn m buffer) = length buffer /\ skipn n (s ++ skipn m buffer) = skipn n buffer.
Proof.
  intros -> L B. split; [rewrite app_length, skipn_length; lia|]. rewrite skipn_app, skipn_all2 by exact L. cbn [app].
  rewrite skipn_skipn_add. f_equal. lia.
Qed.
Lemma buffer_after_beyond kck kek h oui et (k : KeyFrame Container) kd buffer temp :
  ok_data_header h -> length oui = 3 -> ok_key_frame (with_data k kd) ->
  length (enc_eapol h oui et (with_data k kd)) <= length buffer ->
  let b' := buffer_after hmac wrap kck kek h oui et k kd buffer temp in
  length b' = length buffer /\ skipn (sent_length h oui et k kd) b' = skipn (sent_length h oui et k kd) buffer.
Proof.
  intros H LO OK LB. pose proof (before_eapol_length h oui et H LO) as Lp.
  pose proof OK as (_ & _ & _ & Ln & _ & _ & _ & _ & _ & _). cbn [with_data key_nonce] in Ln.
  assert (Lany : forall m (d : bytes), length (enc_eapol h oui et (with_mic (with_data k d) m)) = dh_length h + 8 + 81 + length m + 2 + length d).
  { intros m d. rewrite enc_eapol_eq, app_length, Lp, enc_key_frame_length by exact Ln. cbn [with_mic with_data key_mic key_data]. lia. }
  assert (Lplain : forall d : bytes, length (enc_eapol h oui et (with_data k d)) = dh_length h + 8 + 81 + length (key_mic k) + 2 + length d).
  { intros d. rewrite <- Lany. destruct k; reflexivity. }
  pose proof (padded_length_ge (length kd)) as (G1 & G2 & G3 & _). rewrite <- pad_key_data_length in *.
  unfold buffer_after, sent_length. cbv zeta. rewrite !Lplain in *.
  set (hd := dh_length h + 8 + 81 + length (key_mic k) + 2) in *.
  destruct (Nat.ltb_spec temp 24); [auto|].
  destruct (N.testbit (key_information k) 12 && negb (length kd =? 0)) eqn:Enc; cbn [andb].
  - replace (hd + length kd - length kd) with hd by lia.
    destruct (Nat.ltb_spec (length buffer) (hd + length (pad_key_data kd))) as [R1|R1]; [apply over_beyond; rewrite Lplain; lia|].
    assert (Lpp : length (enc_eapol h oui et (with_data k kd) ++ skipn (length kd) (pad_key_data kd)) = hd + length (pad_key_data kd)).
    { rewrite app_length, Lplain, skipn_length. fold hd. lia. }
    destruct kek as [kek|]; cbn [missing orb]; [|apply over_beyond; rewrite Lpp; lia].
    destruct (temp <? _); cbn [orb]; [apply over_beyond; rewrite Lpp; lia|].
    destruct (Nat.ltb_spec (length buffer) (hd + length (pad_key_data kd) + 8)) as [R2|R2]; [apply over_beyond; rewrite Lpp; lia|].
    apply andb_true_iff in Enc. destruct Enc as [B Z]. apply negb_true_iff, Nat.eqb_neq in Z.
    assert (LS : length (sent_data wrap kek (key_information k) kd) = length (pad_key_data kd) + 8).
    { unfold sent_data. rewrite B. destruct kd as [|x kd']; [now destruct Z|]. apply (kw_length _ _ KW); assumption. }
    cbn [the_key]. destruct (N.testbit (key_information k) 8 && _) eqn:M; cbn [andb].
    + apply over_beyond; rewrite Lplain; lia.
    + assert (LM : length (sent_mic hmac (the_key kck) (with_data k (sent_data wrap kek (key_information k) kd))) = length (key_mic k)).
      { unfold sent_mic. cbn [with_data key_information key_mic]. destruct (N.testbit (key_information k) 8); [|reflexivity].
        destruct kck; [|discriminate]. cbn [missing orb andb] in M. apply negb_false_iff, Nat.eqb_eq in M. rewrite firstn_length, (hmac_length _ HM), M. reflexivity. }
      apply over_beyond; rewrite Lany, LM, LS; fold hd; lia.
  - assert (ES : sent_data wrap (the_key kek) (key_information k) kd = kd).
    { unfold sent_data. destruct (N.testbit (key_information k) 12); [|reflexivity]. destruct kd; [reflexivity|discriminate]. }
    rewrite ES. destruct (N.testbit (key_information k) 8 && _) eqn:M; cbn [andb].
    + apply over_beyond; rewrite Lplain; lia.
    + assert (LM : length (sent_mic hmac (the_key kck) (with_data k kd)) = length (key_mic k)).
      { unfold sent_mic. cbn [with_data key_information key_mic]. destruct (N.testbit (key_information k) 8); [|reflexivity].
        destruct kck; [|discriminate]. cbn [missing orb andb] in M. apply negb_false_iff, Nat.eqb_eq in M. rewrite firstn_length, (hmac_length _ HM), M. reflexivity. }
      apply over_beyond; rewrite Lany, LM; fold hd; lia.
Qed.
Lemma beyond kck kek h oui et (k : KeyFrame Container) kd buffer temp torn :
  ok_data_header h -> length oui = 3 -> wf_bytes oui ->
  Writes (c_write (key_data k)) kd -> ok_key_frame (with_data k kd) ->
  length (enc_eapol h oui et (with_data k kd)) + slack <= length buffer ->
  let b' := snd (serialize_in_place hmac wrap kck kek (h, Some (mkSnap oui et k)) buffer temp torn) in
  length b' = length buffer /\ skipn (sent_length h oui et k kd) b' = skipn (sent_length h oui et k kd) buffer.
Proof. intros H LO WO W OK LB. cbv zeta. rewrite (after kck kek h oui et k kd) by assumption. apply buffer_after_beyond; auto. lia. Qed.
Lemma left_clear kck kek h oui et (k : KeyFrame Container) kd buffer temp torn :
  ok_data_header h -> length oui = 3 -> wf_bytes oui ->
  Writes (c_write (key_data k)) kd -> ok_key_frame (with_data k kd) ->
  length (enc_eapol h oui et (with_data k kd)) + slack <= length buffer ->
  has_encrypted_data (key_information k) -> kd <> [] -> 24 <= temp ->
  kek = None \/ temp < length (pad_key_data kd) + 8 \/ length buffer < sent_length h oui et k kd ->
  firstn (length (enc_eapol h oui et (with_data k kd))) (snd (serialize_in_place hmac wrap kck kek (h, Some (mkSnap oui et k)) buffer temp torn)) =
  enc_eapol h oui et (with_data k kd).
Proof.
  intros H LO WO W OK LB B NE T C. rewrite (after kck kek h oui et k kd) by assumption. unfold has_encrypted_data in B.
  assert (Z : (length kd =? 0) = false) by (destruct kd; [congruence|reflexivity]).
  unfold buffer_after, sent_length in *. rewrite B, Z in *. cbn [negb andb] in *.
  destruct (Nat.ltb_spec temp 24); [lia|].
  pose proof (padded_length_ge (length kd)) as (G1 & G2 & G3 & _). rewrite <- pad_key_data_length in *.
  assert (LH : length kd <= length (enc_eapol h oui et (with_data k kd))).
  { pose proof (before_eapol_length h oui et H LO) as Lp. pose proof OK as (_ & _ & _ & Ln & _ & _ & _ & _ & _ & _). cbn [with_data key_nonce] in Ln.
    rewrite enc_eapol_eq, app_length, Lp, enc_key_frame_length by exact Ln. cbn [with_data key_data]. lia. }
  set (plain := enc_eapol h oui et (with_data k kd)) in *.
  destruct (length buffer <? _); [now apply firstn_app_exact|].
  destruct (missing kek || (temp <? length (pad_key_data kd) + 8) || (length buffer <? length plain - length kd + length (pad_key_data kd) + 8)) eqn:X.
  - rewrite <- app_assoc. now apply firstn_app_exact.
  - apply orb_false_iff in X. destruct X as [X X3]. apply orb_false_iff in X. destruct X as [X1 X2].
    apply Nat.ltb_ge in X2, X3. destruct C as [->|[C|C]]; [discriminate|lia|lia].
Qed.
End F.

(** 17 bytes of key data to be encrypted, without a key *)
Definition left_frame : bytes := enc_eapol test_header [0; 0; 0]%N 0x888e (mkKF 0x100a 16 1 (repeat 7%N 32) 0 0 (repeat 0%N 16) (repeat 1%N 17)).
Lemma left_witness {cfg : Cfg} torn : native_le = true ->
  serialize_in_place hmac_sha1_of aes_wrap None None (small_frame 0x100a (repeat 0%N 16) (repeat 1%N 17)) (repeat 0%N 300) 100 torn =
  (Err MissingKey, left_frame ++ [0xdd; 0; 0; 0; 0; 0; 0]%N ++ repeat 0%N (293 - length left_frame)).
Proof. intros NL. destruct cfg as [[] [] []]; try discriminate NL; vm_compute; reflexivity. Qed.
Lemma clear_refuted {cfg : Cfg} : ~ (forall hmac wrap unwrap kck kek h oui et (k : KeyFrame Container) kd buffer temp torn e b', hmac_sha1 hmac -> key_wrap wrap unwrap ->
  ok_data_header h -> length oui = 3 -> wf_bytes oui -> Writes (c_write (key_data k)) kd -> ok_key_frame (with_data k kd) ->
  has_encrypted_data (key_information k) -> kd <> [] ->
  serialize_in_place hmac wrap kck kek (h, Some (mkSnap oui et k)) buffer temp torn = (Err e, b') ->
  firstn (length (enc_eapol h oui et (with_data k kd))) b' <> enc_eapol h oui et (with_data k kd)).
Proof.
  intros X.
  set (k := mkKF 0x100a 16 1 (repeat 7%N 32) 0 0 (repeat 0%N 16) (c_bytes (repeat 1%N 17))).
  assert (D : ok_data_header test_header) by apply test_hypotheses.
  assert (O : wf_bytes [0; 0; 0]%N) by (apply wf_bytesb_spec; reflexivity).
  assert (W : Writes (c_write (key_data k)) (repeat 1%N 17)) by apply c_bytes_T.
  assert (K : ok_key_frame (with_data k (repeat 1%N 17))).
  { unfold ok_key_frame, k. cbn -[repeat]. repeat split; try reflexivity; apply wf_bytesb_spec; reflexivity. }
  assert (LF : length (enc_eapol test_header [0; 0; 0]%N 0x888e (with_data k (repeat 1%N 17))) = 148) by reflexivity.
  pose proof (left_clear hmac_sha1_of aes_wrap aes_unwrap hmac_sha1_ok aes_key_wrap None None test_header [0; 0; 0]%N 0x888e k (repeat 1%N 17) (repeat 0%N 300) 100 []
    D eq_refl O W K) as L.
  destruct (serialize_in_place hmac_sha1_of aes_wrap None None (test_header, Some (mkSnap [0; 0; 0]%N 0x888e k)) (repeat 0%N 300) 100 []) as [r b'] eqn:E.
  assert (R : r = Err MissingKey).
  { assert (R : fst (serialize_in_place hmac_sha1_of aes_wrap None None (test_header, Some (mkSnap [0; 0; 0]%N 0x888e k)) (repeat 0%N 300) 100 []) = Err MissingKey)
      by (clear; destruct cfg as [[] [] []]; vm_compute; reflexivity).
    rewrite E in R. exact R. }
  subst r. refine (X hmac_sha1_of aes_wrap aes_unwrap None None test_header [0; 0; 0]%N 0x888e%N k (repeat 1%N 17) _ _ _ _ _ hmac_sha1_ok aes_key_wrap D eq_refl O W K eq_refl _ E _); [discriminate|].
  apply L; [|reflexivity|discriminate|lia|now left].
  apply (Nat.le_trans _ (148 + slack)); [apply Nat.add_le_mono_r, Nat.eq_le_incl, LF|]. change (length (repeat 0%N 300)) with 300. unfold slack. destruct strict_end; lia.
Qed.
Lemma send_example : ok_data_header test_header /\ wf_bytes [0; 0; 0]%N /\
  (forall cfg : Cfg, Writes (c_write (c_bytes (repeat 1%N 17))) (repeat 1%N 17)) /\
  ok_key_frame (mkKF 0x100a 16 1 (repeat 7%N 32) 0 0 (repeat 0%N 16) (repeat 1%N 17)) /\ has_encrypted_data 0x100a /\ length left_frame = 148 /\
  sent_length test_header [0; 0; 0]%N 0x888e (mkKF 0x100a 16 1 (repeat 7%N 32) 0 0 (repeat 0%N 16) tt) (repeat 1%N 17) = 163.
Proof.
  split; [apply test_hypotheses|]. split; [apply wf_bytesb_spec; reflexivity|]. split; [intros cfg; apply c_bytes_T|].
  split; [unfold ok_key_frame; cbn -[repeat]; repeat split; try reflexivity; apply wf_bytesb_spec; reflexivity|]. repeat split; reflexivity.
Qed.
