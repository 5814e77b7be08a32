(** Every outcome of [serialize_eapol_data_frame]. *)
From Verif Require Import Base SpecBase BaseFacts StepsFacts Bits BitsFacts Layouts Enums Common CommonFacts Mgmt SpecMgmt MgmtFacts2 SpecElementTypes ElementTypesFacts
  Suites Rsn Data SpecData DataFacts DataFacts2 Eapol SpecEapol EapolFacts KeyMgmt SpecKeyMgmt KeyMgmtFacts KeyMgmtFacts2.
From Coq Require Import ZifyNat.
Ltac Zify.zify_post_hook ::= Z.div_mod_to_equations.
Local Ltac lens := rewrite ?app_length, ?le_bytes_length, ?be_bytes_length, ?ne_bytes_length, ?repeat_length; cbn [length].

Lemma padded_spec n : padded_key_data_length n = Nat.max 16 (8 * ((n + 7) / 8)).
Proof. unfold padded_key_data_length. destruct (Nat.ltb_spec n 16); [lia|]. destruct (Nat.eqb_spec (n mod 8) 0); cbn [negb]; lia. Qed.
Lemma get_range_short b n : length b < n -> get_range b 0 n = None.
Proof. intros L. unfold get_range. destruct (Nat.leb_spec n (length b)); [lia|reflexivity]. Qed.
Lemma get_range_long b n : n <= length b -> get_range b 0 n = Some (firstn n b).
Proof. intros L. unfold get_range. destruct (Nat.leb_spec n (length b)); [|lia]. cbn [Nat.leb andb skipn]. now rewrite Nat.sub_0_r. Qed.
Lemma overwrite_length b o c : o + length c <= length b -> length (overwrite b o c) = length b.
Proof. intros L. unfold overwrite. rewrite !app_length, firstn_length, skipn_length. lia. Qed.
Lemma send_ok kck kek info mic data head room temp : send_outcome kck kek info mic data head room temp = Ok tt ->
  24 <= temp /\
  (has_encrypted_data info -> data <> 0 -> kek <> None /\ Nat.max 16 (8 * ((data + 7) / 8)) + 8 <= temp /\ head + Nat.max 16 (8 * ((data + 7) / 8)) + 8 <= room) /\
  (has_mic info -> kck <> None /\ mic = 16).
Proof.
  unfold send_outcome, has_encrypted_data, has_mic. generalize (Nat.max 16 (8 * ((data + 7) / 8))). intros P. cbv zeta.
  destruct (Nat.ltb_spec temp 24); [discriminate|]. destruct (N.testbit info 12); cbn [andb].
  - destruct (Nat.eqb_spec data 0); cbn [negb].
    + intros O. split; [assumption|]. split; [congruence|]. intros B. rewrite B in O. cbn [andb] in O. destruct kck; [|discriminate].
      cbn [missing] in O. destruct (Nat.eqb_spec mic 16); [split; [discriminate|assumption]|discriminate].
    + destruct (Nat.ltb_spec room (head + P)); [discriminate|]. destruct kek; [|discriminate]. cbn [missing].
      destruct (Nat.ltb_spec temp (P + 8)); [discriminate|]. destruct (Nat.ltb_spec room (head + P + 8)); [discriminate|].
      intros O. split; [assumption|]. split; [intros; repeat split; [discriminate|lia|lia]|]. intros B. rewrite B in O. cbn [andb] in O. destruct kck; [|discriminate].
      cbn [missing] in O. destruct (Nat.eqb_spec mic 16); [split; [discriminate|assumption]|discriminate].
  - intros O. split; [assumption|]. split; [discriminate|]. intros B. rewrite B in O. cbn [andb] in O. destruct kck; [|discriminate].
    cbn [missing] in O. destruct (Nat.eqb_spec mic 16); [split; [discriminate|assumption]|discriminate].
Qed.
Lemma send_panics kck kek info mic data head room temp :
  send_outcome kck kek info mic data head room temp = Panic <-> serialize_panics kck kek info mic data head room temp.
Proof.
  split.
  - unfold send_outcome. cbv zeta. destruct (Nat.ltb_spec temp 24); [discriminate|].
    destruct (N.testbit info 12 && negb (data =? 0)) eqn:B; cbn [andb].
    + apply andb_true_iff in B. destruct B as [B1 B2]. apply negb_true_iff, Nat.eqb_neq in B2.
      destruct (Nat.ltb_spec room (head + Nat.max 16 (8 * ((data + 7) / 8)))); [discriminate|]. destruct kek; [|discriminate]. cbn [missing].
      destruct (Nat.ltb_spec temp (Nat.max 16 (8 * ((data + 7) / 8)) + 8)); [intros _; apply send_panic_temp; auto; discriminate|].
      destruct (Nat.ltb_spec room (head + Nat.max 16 (8 * ((data + 7) / 8)) + 8)); [discriminate|].
      destruct (N.testbit info 8) eqn:M; [|discriminate]. destruct kck; [|discriminate]. cbn [missing andb].
      destruct (Nat.eqb_spec mic 16); [discriminate|]. intros _. apply send_panic_mic; auto; try discriminate. intros _ _. repeat split; [discriminate|lia|lia].
    + destruct (N.testbit info 8) eqn:M; [|discriminate]. destruct kck; [|discriminate]. cbn [missing andb].
      destruct (Nat.eqb_spec mic 16); [discriminate|]. intros _. apply send_panic_mic; auto; try discriminate. intros E D. unfold has_encrypted_data in E. rewrite E in B.
      apply negb_false_iff, Nat.eqb_eq in B. congruence.
  - unfold send_outcome. cbv zeta. intros [T E D K R S|T M K NM E].
    + destruct (Nat.ltb_spec temp 24); [lia|]. rewrite E. destruct (Nat.eqb_spec data 0); [congruence|]. cbn [negb andb].
      destruct (Nat.ltb_spec room (head + Nat.max 16 (8 * ((data + 7) / 8)))); [lia|]. destruct kek; [|congruence]. cbn [missing].
      destruct (Nat.ltb_spec temp (Nat.max 16 (8 * ((data + 7) / 8)) + 8)); [reflexivity|lia].
    + destruct (Nat.ltb_spec temp 24); [lia|]. rewrite M. destruct kck; [|congruence]. cbn [missing]. destruct (Nat.eqb_spec mic 16); [congruence|]. cbn [negb andb].
      destruct (N.testbit info 12 && negb (data =? 0)) eqn:B; [|reflexivity]. apply andb_true_iff in B. destruct B as [B1 B2]. apply negb_true_iff, Nat.eqb_neq in B2.
      destruct (E B1 B2) as (K' & T' & R'). cbn [andb].
      destruct (Nat.ltb_spec room (head + Nat.max 16 (8 * ((data + 7) / 8)))); [lia|]. destruct kek; [|congruence]. cbn [missing].
      destruct (Nat.ltb_spec temp (Nat.max 16 (8 * ((data + 7) / 8)) + 8)); [lia|].
      destruct (Nat.ltb_spec room (head + Nat.max 16 (8 * ((data + 7) / 8)) + 8)); [lia|reflexivity].
Qed.
Section F.
Context {cfg : Cfg}.
Variable hmac : bytes -> bytes -> bytes.
Variable wrap : bytes -> bytes -> bytes.
Variable unwrap : bytes -> bytes -> option bytes.
Hypothesis HM : hmac_sha1 hmac.
Hypothesis KW : key_wrap wrap unwrap.
Lemma serialize_outcome kck kek h oui et (k : KeyFrame Container) kd buffer temp :
  ok_data_header h -> length oui = 3 -> wf_bytes oui ->
  Writes (c_write (key_data k)) kd -> ok_key_frame (with_data k kd) ->
  length (enc_eapol h oui et (with_data k kd)) + slack <= length buffer ->
  let sent := with_data k (sent_data wrap (the_key kek) (key_information k) kd) in
  let frame := enc_eapol h oui et (with_mic sent (sent_mic hmac (the_key kck) sent)) in
  serialize_eapol hmac wrap kck kek (h, Some (mkSnap oui et k)) buffer temp =
  match send_outcome kck kek (key_information k) (length (key_mic k)) (length kd) (length (enc_eapol h oui et (with_data k []))) (length buffer) temp with
  | Ok _ => Ok (frame ++ skipn (length frame) buffer, length frame)
  | Err e => Err e
  | Panic => Panic
  end.
Proof.
  intros H LO WO W OK LB0 sent frame.
  pose proof (before_eapol_length h oui et H LO) as Lp.
  pose proof (eapol_data_W h oui et k kd H LO WO OK W) as WW. pose proof (pwrite0_W _ _ WW) as PW.
  pose proof OK as (_ & _ & _ & Ln & _ & _ & _ & _ & _ & LK). cbn [with_data key_nonce key_mic key_data] in Ln, LK.
  assert (Lhead : length (enc_eapol h oui et (with_data k [])) = dh_length h + 8 + 81 + length (key_mic k) + 2).
  { rewrite enc_eapol_eq, app_length, Lp, enc_key_frame_length by exact Ln. cbn [with_data key_mic key_data length]. lia. }
  assert (Lframe0 : length (enc_eapol h oui et (with_data k kd)) = dh_length h + 8 + 81 + length (key_mic k) + 2 + length kd).
  { rewrite enc_eapol_eq, app_length, Lp, enc_key_frame_length by exact Ln. cbn [with_data key_mic key_data]. lia. }
  pose proof (padded_length_ge (length kd)) as (G1 & G2 & G3 & _).
  rewrite Lhead. set (P := padded_key_data_length (length kd)) in *.
  set (out := send_outcome _ _ _ _ _ _ _ _).
  assert (OKC : out = Ok tt -> serialize_eapol hmac wrap kck kek (h, Some (mkSnap oui et k)) buffer temp = Ok (frame ++ skipn (length frame) buffer, length frame)).
  { intros O. destruct (send_ok _ _ _ _ _ _ _ _ O) as (T24 & EN & MI). rewrite <- padded_spec in EN. fold P in EN. clear O out.
    apply (serialize_spec_fit hmac wrap unwrap HM KW (the_key kck) (the_key kek)); auto.
    - unfold has_mic. intros B. destruct (MI B) as [K M]. destruct kck; [auto|congruence].
    - unfold has_encrypted_data. intros B NE. destruct (EN B) as [K _]; [destruct kd; [congruence|discriminate]|]. destruct kek; [reflexivity|congruence].
    - unfold has_encrypted_data. intros B. rewrite (sent_data_length wrap unwrap KW), B. destruct kd as [|b kd']; [lia|].
      fold P. destruct (EN B) as (_ & L & _); [discriminate|]. exact L.
    - assert (Lm : length (sent_mic hmac (the_key kck) sent) = length (key_mic k)).
      { unfold sent_mic. change (key_information sent) with (key_information k). destruct (N.testbit (key_information k) 8) eqn:B; [|reflexivity].
        rewrite firstn_length, (hmac_length _ HM). destruct (MI B) as [_ ->]. reflexivity. }
      fold sent. rewrite enc_eapol_eq, app_length, Lp, enc_key_frame_length by exact Ln. cbn [with_mic with_data key_mic key_data].
      rewrite Lm. unfold sent. cbn [with_mic with_data key_mic key_data].
      rewrite (sent_data_length wrap unwrap KW). destruct (N.testbit (key_information k) 12) eqn:B; [|lia].
      destruct kd as [|b kd']; [cbn [length] in *; lia|]. fold P. destruct (EN B) as (_ & _ & L); [discriminate|]. lia. }
  assert (X : out = Ok tt \/ serialize_eapol hmac wrap kck kek (h, Some (mkSnap oui et k)) buffer temp = match out with Ok _ => Panic | Err e => Err e | Panic => Panic end);
    [|destruct X as [X|X]; [rewrite (OKC X), X; reflexivity|rewrite X; destruct out as [[]| |]; auto; rewrite OKC in X by reflexivity; discriminate]].
  clear OKC. unfold out, send_outcome. rewrite <- padded_spec. fold P. clear out.
  unfold serialize_eapol. destruct (Nat.ltb_spec temp 24) as [T24|T24]; [auto|].
  cbn [eapol_mic_range eapol_key_data_length_range eapol_key_data_range ok_or rbind fst snd snap_payload].
  cbv zeta. rewrite (writes_ok _ _ PW) by lia. cbn [map_err rbind].
  set (p := before_eapol h oui et) in *.
  set (f := enc_key_fields k).
  assert (Lf : length f = 77) by (apply enc_key_fields_length; exact Ln).
  remember (skipn (length (enc_eapol h oui et (with_data k kd))) buffer) as u eqn:Eu.
  assert (Lu : length u = length buffer - length (enc_eapol h oui et (with_data k kd))) by (subst u; apply skipn_length).
  clear Eu. rewrite Lframe0 in *.
  rewrite asm_enc. fold p. change (enc_key_fields (with_data k kd)) with f. cbn [with_data key_mic key_data].
  rewrite !enc_key_body_length by exact Ln. cbn [with_mic with_data key_mic key_data].
  set (B0 := asm p (N.of_nat (77 + length (key_mic k) + 2 + length kd)) f (key_mic k) (N.of_nat (length kd)) kd u).
  assert (LB : length B0 = length buffer) by (unfold B0, asm; lens; rewrite Lf, Lp, Lu; lia).
  unfold B0 at 1. rewrite asm_slice_dlen by lia. cbn [rbind].
  unfold pread, gread. rewrite end_bad_lt by (rewrite be_bytes_length; lia). cbn [skipn].
  rewrite <- (app_nil_r (be_bytes 2 (N.of_nat (length kd)))), (rd_be_R 2) by (change (256 ^ N.of_nat 2)%N with 65536%N; lia).
  cbn [res_unwrap rbind]. rewrite Nnat.Nat2N.id. rewrite ki_encrypted_bit, ki_key_mic_bit.
  rewrite (andb_comm (N.testbit _ 12)).
  set (mic_step := fun x : bytes * nat => _).
  assert (MS : forall b w, length b = length buffer -> dh_length h + 8 + 81 + length (key_mic k) + 2 <= w -> w <= length buffer ->
    (if N.testbit (key_information k) 8 && missing kck then Err MissingKey
     else if N.testbit (key_information k) 8 && negb (length (key_mic k) =? 16) then Panic else Ok tt) = Ok tt \/
    mic_step (b, w) = match (if N.testbit (key_information k) 8 && missing kck then Err MissingKey
     else if N.testbit (key_information k) 8 && negb (length (key_mic k) =? 16) then Panic else Ok tt) with Ok _ => Panic | Err e => Err e | Panic => Panic end).
  { intros b w Lb W1 W2. unfold mic_step. destruct (N.testbit (key_information k) 8); [|auto].
    destruct kck as [key|]; [|auto]. cbn [missing ok_or rbind andb].
    assert (SL : forall a c, a <= c -> c <= length b -> exists s, @slice EapolSerdeError b a c = Ok s).
    { intros a c A C. unfold slice. destruct (Nat.leb_spec a c); [|lia]. destruct (Nat.leb_spec c (length b)); [|lia]. eexists; reflexivity. }
    destruct (SL (dh_length h + 8) w) as [s ->]; [lia|lia|]. cbn [rbind].
    match goal with |- context [slice b ?a ?c] => destruct (SL a c) as [s' ->]; [lia|lia|]; replace (c - a) with (length (key_mic k)) by lia end. cbn [rbind].
    destruct (length (key_mic k) =? 16); auto. }
  fold P.
  destruct (negb (length kd =? 0) && N.testbit (key_information k) 12) eqn:Enc; cbn [andb].
  2:{ cbn [rbind]. apply MS; [exact LB|lia|lia]. }
  assert (Rest : slice_from B0 (dh_length h + 8 + 81 + length (key_mic k) + 2) = @Ok EapolSerdeError _ (kd ++ u)) by (apply asm_from_data; lia).
  match goal with |- context [slice_from B0 ?n] => replace n with (dh_length h + 8 + 81 + length (key_mic k) + 2) by lia end.
  rewrite Rest. cbn [rbind].
  destruct (Nat.ltb_spec (length buffer) (dh_length h + 8 + 81 + length (key_mic k) + 2 + P)) as [R1|R1].
  { rewrite get_range_short by (lens; lia). auto. }
  rewrite get_range_long by (lens; lia). cbn [ok_or rbind].
  destruct kek as [kek|]; [|auto]. cbn [missing ok_or rbind the_key].
  destruct (Nat.ltb_spec temp (P + 8)) as [T|T]; [auto|].
  set (D := firstn (length kd) _ ++ _).
  assert (LD : length D = P) by (unfold D; rewrite app_length, padding_length, !firstn_length, app_length; lia).
  set (B1 := overwrite B0 _ D).
  assert (LB1 : length B1 = length buffer) by (unfold B1; rewrite overwrite_length; lia).
  rewrite slice_from_ok by lia. cbn [rbind].
  destruct (Nat.ltb_spec (length buffer) (dh_length h + 8 + 81 + length (key_mic k) + 2 + P + 8)) as [R2|R2].
  { rewrite get_range_short by (rewrite skipn_length; lia). cbn [ok_or rbind]. right. reflexivity. }
  rewrite get_range_long by (rewrite skipn_length; lia). cbn [ok_or rbind].
  assert (PL : forall w (b : bytes) o, length b = length buffer -> length (match pwrite (wr_be 2 w) b o with Ok (b', _) => b' | _ => b end) = length buffer).
  { intros w b o Lb. destruct (pwrite (wr_be 2 w) b o) as [[b' ?]| |] eqn:PE; [|exact Lb|exact Lb].
    revert PE. unfold pwrite, gwrite. destruct (end_bad o (length b)) eqn:EB; [discriminate|].
    unfold wr_be, wr_bytes. pose proof (be_bytes_length 2 w) as L2. remember (be_bytes 2 w) as bw eqn:Ebw. clear Ebw. destruct (Nat.ltb_spec (length (skipn o b)) (length bw)) as [|Q]; [discriminate|]. intros E. injection E as <- _.
    rewrite skipn_length in Q. rewrite !app_length, firstn_length, !skipn_length. lia. }
  apply MS; [|lia|lia].
  apply PL, PL. rewrite overwrite_length; [exact LB1|]. rewrite (kw_length _ _ KW) by lia. lia.
Qed.
Lemma serialize_short kck kek h oui et (k : KeyFrame Container) kd buffer temp :
  ok_data_header h -> length oui = 3 -> wf_bytes oui ->
  Writes (c_write (key_data k)) kd -> ok_key_frame (with_data k kd) ->
  length buffer < length (enc_eapol h oui et (with_data k kd)) ->
  serialize_eapol hmac wrap kck kek (h, Some (mkSnap oui et k)) buffer temp = Err (if temp <? 24 then TemporaryBufferToShort else BufferTooShort).
Proof.
  intros H LO WO W OK L. pose proof (pwrite0_W _ _ (eapol_data_W h oui et k kd H LO WO OK W)) as PW.
  unfold serialize_eapol. destruct (temp <? 24); [reflexivity|].
  cbn [eapol_mic_range eapol_key_data_length_range eapol_key_data_range ok_or rbind fst snd snap_payload]. cbv zeta.
  destruct (writes_any _ _ PW buffer) as [[X _]|[e ->]]; [lia|reflexivity].
Qed.
Lemma serialize_panics_iff kck kek h oui et (k : KeyFrame Container) kd buffer temp :
  ok_data_header h -> length oui = 3 -> wf_bytes oui ->
  Writes (c_write (key_data k)) kd -> ok_key_frame (with_data k kd) ->
  length (enc_eapol h oui et (with_data k kd)) + slack <= length buffer ->
  serialize_eapol hmac wrap kck kek (h, Some (mkSnap oui et k)) buffer temp = Panic <->
  serialize_panics kck kek (key_information k) (length (key_mic k)) (length kd) (length (enc_eapol h oui et (with_data k []))) (length buffer) temp.
Proof.
  intros. rewrite (serialize_outcome kck kek h oui et k kd) by assumption. rewrite <- send_panics. destruct (send_outcome _ _ _ _ _ _ _ _); split; congruence.
Qed.
End F.
