(** What [deserialize_eapol_data_frame] leaves in the caller's buffer. *)
From Verif Require Import Base SpecBase BaseFacts StepsFacts Bits BitsFacts Layouts Enums Common CommonFacts Mgmt SpecMgmt MgmtFacts2 SpecElementTypes ElementTypesFacts
  Suites Rsn RsnFacts Data SpecData DataFacts DataFacts2 Eapol SpecEapol EapolFacts KeyMgmt SpecKeyMgmt KeyMgmtFacts KeyMgmtFacts2 KeyMgmtFacts3 KeyMgmtFacts4 KeyMgmtFacts6 KeyMgmtState Sha1 Aes AesFacts.
Local Ltac lens := rewrite ?app_length, ?le_bytes_length, ?be_bytes_length, ?ne_bytes_length, ?repeat_length; cbn [length].

Lemma between_skipn b s n : between_bytes (skipn s b) 0 n = between_bytes b s (s + n).
Proof. unfold between_bytes. cbn [skipn]. f_equal. lia. Qed.
Lemma between_firstn b x y : between_bytes b x y = skipn x (firstn y b).
Proof. unfold between_bytes. symmetry. apply skipn_firstn_comm. Qed.
Lemma between_prefix b b' n x y : firstn n b = firstn n b' -> y <= n -> between_bytes b x y = between_bytes b' x y.
Proof.
  intros E L. rewrite !between_firstn. f_equal. replace y with (Nat.min y n) by lia. rewrite <- !firstn_firstn. now rewrite E.
Qed.
Lemma between_sub b x0 y0 x y : x0 <= x -> x <= y -> y <= y0 -> between_bytes b x y = firstn (y - x) (skipn (x - x0) (between_bytes b x0 y0)).
Proof.
  intros A B C. unfold between_bytes. rewrite skipn_firstn_comm, firstn_firstn. replace (Nat.min (y - x) (y0 - x0 - (x - x0))) with (y - x) by lia.
  rewrite skipn_skipn_add. do 2 f_equal. lia.
Qed.
Lemma header_size_prefix b b' : firstn 2 b = firstn 2 b' -> length b = length b' -> header_size b = header_size b'.
Proof.
  intros E L. destruct b as [|x [|y b]], b' as [|x' [|y' b']]; try discriminate; try reflexivity. cbn [firstn] in E. injection E as <- <-.
  unfold header_size. now rewrite L.
Qed.

Lemma between_at (a b c : bytes) n m : n = length a -> m = length a + length b -> between_bytes (a ++ b ++ c) n m = b.
Proof. intros -> ->. apply between_app. Qed.

Section F.
Context {cfg : Cfg}.
Variable hmac : bytes -> bytes -> bytes.
Variable wrap : bytes -> bytes -> bytes.
Variable unwrap : bytes -> bytes -> option bytes.
Hypothesis HM : hmac_sha1 hmac.
Hypothesis KW : key_wrap wrap unwrap.

(** ** The same result *)
Lemma decrypt_in_place_result kek b e m info temp : fst (decrypt_in_place unwrap kek b e m info temp) = decrypt_key_data unwrap kek b e m info temp.
Proof.
  unfold decrypt_in_place, decrypt_key_data. destruct (ki_encrypted_key_data info); [|reflexivity]. cbv zeta.
  destruct (map_err BufferTooShort (pread (rd_be 2) b (e + 81 + m))) as [dl| |]; cbn [rbind fst]; try reflexivity.
  destruct (slice_from b (e + 81 + m + 2)) as [rest| |]; cbn [rbind fst]; try reflexivity.
  destruct (get_range rest 0 (N.to_nat dl)) as [data|]; cbn [rbind fst]; try reflexivity.
  destruct kek as [kek|]; cbn [ok_or rbind fst]; try reflexivity.
  destruct (usub (N.to_nat dl) 8) as [n| |]; cbn [rbind fst]; try reflexivity.
  destruct (temp <? n); [reflexivity|]. destruct (unwrap kek data) as [plain|]; cbn [ok_or rbind fst]; [|reflexivity].
  destruct (pwrite (wr_be 2 (N.of_nat n)) b (e + 81 + m)) as [[b1 z1]| |]; cbn [res_unwrap rbind fst]; try reflexivity.
  destruct (pwrite (wr_bytes plain) b1 (e + 81 + m + 2)) as [[b2 z2]| |]; cbn [res_unwrap rbind fst]; try reflexivity.
  destruct (usub (length b2) 8) as [n1| |]; cbn [rbind fst]; try reflexivity.
  destruct (usub n1 e) as [n2| |]; cbn [rbind fst]; try reflexivity.
  destruct (usub n2 4) as [n3| |]; cbn [rbind fst]; try reflexivity.
  destruct (res_unwrap _) as [[b3 z3]| |]; reflexivity.
Qed.
Lemma plain_in_place_result kck kek b temp akm :
  fst (deserialize_plain_in_place hmac unwrap kck kek b temp akm) = deserialize_eapol hmac unwrap kck kek b temp akm false.
Proof.
  unfold deserialize_plain_in_place, deserialize_eapol. cbn [rbind].
  destruct (map_err BufferTooShort (pread rd_data_header b 0)) as [h| |]; cbn [rbind fst]; try reflexivity.
  destruct (ok_or BufferTooShort (get_from b (dh_length h + 6))) as [rest| |]; cbn [rbind fst]; try reflexivity.
  destruct (map_err BufferTooShort (pread (rd_be 2) rest 0)) as [et| |]; cbn [rbind fst]; try reflexivity.
  destruct (negb (et =? 0x888e)%N); [reflexivity|].
  destruct (slice_from b (dh_length h + 8 + 5)) as [rest2| |]; cbn [rbind fst]; try reflexivity.
  destruct (map_err BufferTooShort (pread (rd_be 2) rest2 0)) as [info| |]; cbn [rbind fst]; try reflexivity.
  destruct (ok_or UnknownAkmSuite (key_mic_len akm)) as [m| |]; cbn [rbind fst]; try reflexivity.
  destruct (check_mic hmac kck b (dh_length h + 8) m info) as [[]| |]; cbn [rbind fst]; try reflexivity.
  rewrite <- (decrypt_in_place_result kek b (dh_length h + 8) m info temp). destruct (decrypt_in_place _ _ _ _ _ _ _) as [r after]. reflexivity.
Qed.
Lemma in_place_result kck kek b temp akm (with_fcs : bool) :
  fst (deserialize_in_place hmac unwrap kck kek b temp akm with_fcs) = deserialize_eapol hmac unwrap kck kek b temp akm with_fcs.
Proof.
  unfold deserialize_in_place. destruct with_fcs; [|apply plain_in_place_result]. rewrite deser_fcs.
  destruct (length b <? 4); [reflexivity|]. rewrite <- plain_in_place_result. destruct (deserialize_plain_in_place _ _ _ _ _ _ _). reflexivity.
Qed.

(** ** The buffer *)
Lemma decrypt_in_place_eq kek b e m info temp :
  decrypt_in_place unwrap kek b e m info temp =
  if N.testbit info 12 then
    let dl := data_length_at b e m in
    if length b <? e + 81 + m + 2 then (Err BufferTooShort, b)
    else if length b <? e + 81 + m + 2 + dl then (Panic, b)
    else match kek with
         | None => (Err MissingKey, b)
         | Some key =>
           if dl <? 8 then (Panic, b) else if temp + 8 <? dl then (Panic, b)
           else match unwrap key (between_bytes b (e + 81 + m + 2) (e + 81 + m + 2 + dl)) with
                | None => (Err TemporaryBufferToShort, b)
                | Some plain => (Ok (decrypted b e m dl plain), decrypted_in_place b e m plain)
                end
         end
  else (Ok b, b).
Proof.
  pose proof (decrypt_in_place_result kek b e m info temp) as R. rewrite (decrypt_eq hmac unwrap (hmac_length _ HM) (kw_unwrap_length _ _ KW)) in R. revert R.
  unfold decrypt_in_place. rewrite ki_encrypted_bit. destruct (N.testbit info 12); [|reflexivity]. cbv zeta.
  destruct (pread_be_cases 2 b (e + 81 + m)) as [S1 S2]; [discriminate|].
  destruct (Nat.ltb_spec (length b) (e + 81 + m + 2)) as [L|L].
  { intros _. destruct (S1 L) as [er ->]. reflexivity. }
  rewrite (S2 L). cbn [map_err rbind]. clear S1 S2. fold (data_length_at b e m). set (dl := data_length_at b e m).
  rewrite slice_from_ok by exact L. cbn [rbind]. unfold get_range. cbn [Nat.leb andb skipn]. rewrite Nat.sub_0_r, skipn_length.
  destruct (Nat.ltb_spec (length b) (e + 81 + m + 2 + dl)) as [L1|L1]; (destruct (Nat.leb_spec dl (length b - (e + 81 + m + 2))) as [L2|L2]; try lia); [reflexivity|].
  cbn [rbind]. destruct kek as [key|]; [|reflexivity]. cbn [ok_or rbind]. unfold usub.
  destruct (Nat.ltb_spec dl 8) as [L3|L3]; (destruct (Nat.leb_spec 8 dl) as [L4|L4]; try lia); [reflexivity|]. cbn [rbind].
  destruct (Nat.ltb_spec temp (dl - 8)) as [L5|L5]; destruct (Nat.ltb_spec (temp + 8) dl) as [L6|L6]; try lia; [reflexivity|].
  replace (firstn dl (skipn (e + 81 + m + 2) b)) with (between_bytes b (e + 81 + m + 2) (e + 81 + m + 2 + dl)) by (unfold between_bytes; f_equal; lia).
  destruct (unwrap key _) as [plain|] eqn:U; [|reflexivity]. cbn [ok_or rbind].
  apply (kw_unwrap_length _ _ KW) in U. rewrite between_length in U by lia.
  assert (Hlen : length plain = dl - 8) by lia.
  (* the buffer in pieces *)
  assert (E : b = firstn (e + 2) b ++ between_bytes b (e + 2) (e + 4) ++ between_bytes b (e + 4) (e + 81 + m) ++ between_bytes b (e + 81 + m) (e + 81 + m + 2) ++
                  between_bytes b (e + 81 + m + 2) (e + 81 + m + 2 + length plain) ++ skipn (e + 81 + m + 2 + length plain) b).
  { rewrite <- (between_split b (e + 81 + m + 2)) by lia. rewrite <- (between_split b (e + 81 + m)) by lia. rewrite <- (between_split b (e + 4)) by lia.
    rewrite <- (between_split b (e + 2)) by lia. now rewrite firstn_skipn. }
  intros R. unfold decrypted_in_place. revert R. generalize (decrypted b e m dl plain). intros short R. set (n := length b) in *.
  assert (La : length (firstn (e + 2) b) = e + 2) by (rewrite firstn_length; lia). set (a := firstn (e + 2) b) in *.
  assert (Lb : length (between_bytes b (e + 2) (e + 4)) = 2) by (rewrite between_length by lia; lia). set (q1 := between_bytes b (e + 2) (e + 4)) in *.
  assert (Lc : length (between_bytes b (e + 4) (e + 81 + m)) = 77 + m) by (rewrite between_length by lia; lia). set (q2 := between_bytes b (e + 4) (e + 81 + m)) in *.
  assert (Ld : length (between_bytes b (e + 81 + m) (e + 81 + m + 2)) = 2) by (rewrite between_length by lia; lia). set (q3 := between_bytes b (e + 81 + m) (e + 81 + m + 2)) in *.
  assert (Le : length (between_bytes b (e + 81 + m + 2) (e + 81 + m + 2 + length plain)) = length plain) by (rewrite between_length by lia; lia).
  set (q4 := between_bytes b (e + 81 + m + 2) (e + 81 + m + 2 + length plain)) in *.
  assert (Lg : length (skipn (e + 81 + m + 2 + length plain) b) = n - (e + 81 + m + 2 + length plain)) by (rewrite skipn_length; reflexivity).
  set (q5 := skipn (e + 81 + m + 2 + length plain) b) in *. rewrite <- Hlen in *. clearbody dl.
  assert (Ln : n = length b) by reflexivity. clearbody a q1 q2 q3 q4 q5 n. revert R.
  replace b with ((a ++ q1 ++ q2) ++ q3 ++ (q4 ++ q5)) by (rewrite E, <- !app_assoc; reflexivity).
  assert (Lx : length (a ++ q1 ++ q2) = e + 81 + m) by (lens; lia). rewrite <- Lx. unfold wr_be at 1 3.
  rewrite pwrite_app by (try (apply nonempty_length; lia); lens; lia).
  assert (Lq5 : 8 <= length q5) by lia.
  assert (P2 : pwrite (wr_bytes plain) ((a ++ q1 ++ q2) ++ be_bytes 2 (N.of_nat (length plain)) ++ q4 ++ q5) (length (a ++ q1 ++ q2) + 2) =
               Ok (((a ++ q1 ++ q2) ++ be_bytes 2 (N.of_nat (length plain))) ++ plain ++ q5, length plain)).
  { rewrite (app_assoc (a ++ q1 ++ q2)). replace (length (a ++ q1 ++ q2) + 2) with (length ((a ++ q1 ++ q2) ++ be_bytes 2 (N.of_nat (length plain)))) by (lens; lia).
    set (z := (a ++ q1 ++ q2) ++ be_bytes 2 (N.of_nat (length plain))). clearbody z. unfold pwrite, gwrite. rewrite end_bad_lt by (lens; lia).
    rewrite skipn_app_exact, firstn_app_exact by reflexivity. unfold wr_bytes.
    destruct (Nat.ltb_spec (length (q4 ++ q5)) (length plain)) as [X|_]; [rewrite app_length in X; lia|].
    rewrite skipn_app_exact by lia. do 2 f_equal. lia. }
  rewrite P2. clear P2.
  assert (Lall : length (((a ++ q1 ++ q2) ++ be_bytes 2 (N.of_nat (length plain))) ++ plain ++ q5) = n) by (lens; lia).
  rewrite Lall. destruct (Nat.leb_spec 8 n) as [_|]; [|lia]. cbn [rbind].
  destruct (Nat.leb_spec e (n - 8)) as [_|]; [|lia]. cbn [rbind]. destruct (Nat.leb_spec 4 (n - 8 - e)) as [_|]; [|lia]. cbn [rbind].
  assert (EF : firstn (n - 8) (((a ++ q1 ++ q2) ++ be_bytes 2 (N.of_nat (length plain))) ++ plain ++ q5)
    = a ++ q1 ++ (q2 ++ be_bytes 2 (N.of_nat (length plain)) ++ plain ++ firstn (length q5 - 8) q5)).
  { replace (((a ++ q1 ++ q2) ++ be_bytes 2 (N.of_nat (length plain))) ++ plain ++ q5) with ((((a ++ q1 ++ q2) ++ be_bytes 2 (N.of_nat (length plain))) ++ plain) ++ q5)
        by (now rewrite <- !app_assoc).
      rewrite (firstn_app (n - 8)). rewrite (firstn_all2 (_ ++ plain)) by (lens; lia). rewrite <- !app_assoc. do 5 f_equal. f_equal. lens. lia. }
  rewrite EF. clear EF.
  replace (e + 2) with (length a) by exact La. unfold wr_be. rewrite pwrite_app by (try (apply nonempty_length; lia); lens; lia). cbn [res_unwrap rbind fst].
  intros R. f_equal; [exact R|]. clear R. rewrite be2_mod.
  set (y := be_bytes 2 (N.of_nat (n - 8 - e - 4))). assert (Ly : length y = 2) by apply be_bytes_length. clearbody y.
  replace (((a ++ q1 ++ q2) ++ be_bytes 2 (N.of_nat (length plain))) ++ plain ++ q5) with ((a ++ q1 ++ q2 ++ be_bytes 2 (N.of_nat (length plain)) ++ plain ++ firstn (length q5 - 8) q5) ++ skipn (length q5 - 8) q5).
  2:{ rewrite <- !app_assoc. rewrite firstn_skipn. reflexivity. }
  rewrite skipn_app_exact by (lens; lia). rewrite <- !app_assoc. rewrite firstn_skipn. reflexivity.
Qed.

Lemma plain_in_place_offset kck kek b temp akm e : wf_bytes b -> eapol_offset b e ->
  deserialize_plain_in_place hmac unwrap kck kek b temp akm =
  if length b <? e + 5 then (Panic, b)
  else if length b <? e + 7 then (Err BufferTooShort, b)
  else match key_mic_len akm with
       | None => (Err UnknownAkmSuite, b)
       | Some m =>
         match check_mic hmac kck b e m (info_at b e) with
         | Err er => (Err er, b)
         | Panic => (Panic, b)
         | Ok _ =>
           let '(short, after) := decrypt_in_place unwrap kek b e m (info_at b e) temp in
           (short <- short ;; map_err KeyFrameDeserializationFailure (pread (rd_key_frame akm) short e), after)
         end
       end.
Proof.
  intros W (s & HS & -> & L & ET). unfold deserialize_plain_in_place. cbn [rbind].
  pose proof (header_size_spec b W) as H. destruct (pread rd_data_header b 0) as [h|er|]; [|congruence|tauto].
  rewrite HS in H. injection H as ->. cbn [map_err rbind]. unfold get_from. destruct (Nat.leb_spec (dh_length h + 6) (length b)) as [_|]; [|lia]. cbn [ok_or rbind].
  rewrite (proj2 (pread_be_cases 2 (skipn (dh_length h + 6) b) 0 ltac:(discriminate))) by (rewrite skipn_length; lia). cbn [map_err rbind].
  rewrite between_skipn. replace (dh_length h + 6 + (0 + 2)) with (dh_length h + 8) by lia. rewrite ET. change (be_val [0x88; 0x8e]%N) with 0x888e%N. cbn [N.eqb Pos.eqb negb].
  unfold slice_from. destruct (Nat.ltb_spec (length b) (dh_length h + 8 + 5)) as [L5|L5]; (destruct (Nat.leb_spec (dh_length h + 8 + 5) (length b)) as [X|X]; try lia); [reflexivity|].
  cbn [rbind]. destruct (pread_be_cases 2 (skipn (dh_length h + 8 + 5) b) 0 ltac:(discriminate)) as [P1 P2]. rewrite skipn_length in *.
  destruct (Nat.ltb_spec (length b) (dh_length h + 8 + 7)) as [L7|L7].
  - destruct P1 as [er ->]; [lia|]. reflexivity.
  - rewrite P2 by lia. cbn [map_err rbind]. rewrite between_skipn. replace (dh_length h + 8 + 5 + (0 + 2)) with (dh_length h + 8 + 7) by lia.
    fold (info_at b (dh_length h + 8)). destruct (key_mic_len akm) as [m|]; [|reflexivity]. cbn [ok_or rbind]. destruct (check_mic _ _ _ _ _ _); reflexivity.
Qed.
Lemma plain_in_place_no_offset kck kek b temp akm : wf_bytes b -> (forall e, ~ eapol_offset b e) ->
  exists er, deserialize_plain_in_place hmac unwrap kck kek b temp akm = (Err er, b).
Proof.
  intros W NO. unfold deserialize_plain_in_place. cbn [rbind].
  pose proof (header_size_spec b W) as H. destruct (pread rd_data_header b 0) as [h|er|]; [|cbn [map_err rbind]; eauto|tauto].
  cbn [map_err rbind]. unfold get_from. destruct (Nat.leb_spec (dh_length h + 6) (length b)) as [L|]; [|cbn [ok_or rbind]; eauto]. cbn [ok_or rbind].
  destruct (pread_be_cases 2 (skipn (dh_length h + 6) b) 0 ltac:(discriminate)) as [P1 P2]. rewrite skipn_length in *.
  destruct (Nat.lt_ge_cases (length b) (dh_length h + 8)) as [L8|L8].
  - destruct P1 as [er ->]; [lia|]. cbn [map_err rbind]. eauto.
  - rewrite P2 by lia. cbn [map_err rbind]. rewrite between_skipn. replace (dh_length h + 6 + (0 + 2)) with (dh_length h + 8) by lia.
    destruct (N.eqb_spec (be_val (between_bytes b (dh_length h + 6) (dh_length h + 8))) 0x888e) as [E|]; [|cbn [negb]; eauto].
    exfalso. apply (NO (dh_length h + 8)). exists (dh_length h). split; [exact H|]. split; [reflexivity|]. split; [exact L8|].
    rewrite <- (be_bytes_val (between_bytes b (dh_length h + 6) (dh_length h + 8))) by (now apply between_wf).
    rewrite between_length by lia. replace (dh_length h + 8 - (dh_length h + 6)) with 2 by lia. rewrite E. reflexivity.
Qed.

Notation unwraps := (unwraps hmac unwrap).
Lemma plain_in_place_cases kck kek b temp akm r b' : wf_bytes b -> deserialize_plain_in_place hmac unwrap kck kek b temp akm = (r, b') ->
  (b' = b /\ forall e, eapol_offset b e -> has_encrypted_data (info_at b e) -> r <> Err KeyFrameDeserializationFailure /\ forall k, r <> Ok k) \/
  exists e m plain, unwraps kck kek b akm e m plain /\ b' = decrypted_in_place b e m plain /\
    (r = Err KeyFrameDeserializationFailure \/ exists k, r = Ok k).
Proof.
  intros W D. destruct (eapol_offset_dec hmac unwrap (hmac_length _ HM) (kw_unwrap_length _ _ KW) b W) as [[e O]|NO].
  2:{ left. destruct (plain_in_place_no_offset kck kek b temp akm W NO) as [er E]. rewrite E in D. injection D as <- <-. split; [reflexivity|].
      intros e O. elim (NO e O). }
  assert (U : forall e', eapol_offset b e' -> e' = e) by (intros; eapply eapol_offset_unique; eassumption).
  rewrite (plain_in_place_offset _ _ _ _ _ e W O) in D.
  destruct (length b <? e + 5); [injection D as <- <-; left; split; [reflexivity|]; intros; split; congruence|].
  destruct (length b <? e + 7); [injection D as <- <-; left; split; [reflexivity|]; intros; split; congruence|].
  destruct (key_mic_len akm) as [m|] eqn:KM; [|injection D as <- <-; left; split; [reflexivity|]; intros; split; congruence].
  pose proof (key_mic_len_8 _ _ KM) as M8. assert (M : m mod 8 = 0) by (destruct M8 as [->|[->| ->]]; reflexivity).
  destruct (check_mic hmac kck b e m (info_at b e)) as [[]|er|] eqn:C.
  2:{ injection D as <- <-; left; split; [reflexivity|]. intros _ _ _. split; [|congruence]. intros X. injection X as ->.
      rewrite (check_mic_eq hmac unwrap (hmac_length _ HM) (kw_unwrap_length _ _ KW)) in C by exact M. revert C.
      destruct (N.testbit _ 8); [|discriminate]. destruct kck; [|discriminate]. destruct (_ <? _); [discriminate|]. destruct (_ <? _); [discriminate|]. destruct (list_eq_dec _ _ _); discriminate. }
  2:{ injection D as <- <-; left; split; [reflexivity|]. intros; split; congruence. }
  apply (check_mic_ok hmac unwrap (hmac_length _ HM) (kw_unwrap_length _ _ KW)) in C; [|exact M].
  rewrite decrypt_in_place_eq in D. cbv zeta in D. destruct (N.testbit (info_at b e) 12) eqn:B12.
  2:{ injection D as <- <-. left. split; [reflexivity|]. intros e' O' HE. apply U in O'. subst e'. unfold has_encrypted_data in HE. congruence. }
  destruct (length b <? e + 81 + m + 2); [injection D as <- <-; left; split; [reflexivity|]; intros; split; cbn [rbind]; congruence|].
  destruct (Nat.ltb_spec (length b) (e + 81 + m + 2 + data_length_at b e m)) as [L|L]; [injection D as <- <-; left; split; [reflexivity|]; intros; split; cbn [rbind]; congruence|].
  destruct kek as [key|]; [|injection D as <- <-; left; split; [reflexivity|]; intros; split; cbn [rbind]; congruence].
  destruct (data_length_at b e m <? 8); [injection D as <- <-; left; split; [reflexivity|]; intros; split; cbn [rbind]; congruence|].
  destruct (temp + 8 <? data_length_at b e m); [injection D as <- <-; left; split; [reflexivity|]; intros; split; cbn [rbind]; congruence|].
  destruct (unwrap key _) as [plain|] eqn:UW; [|injection D as <- <-; left; split; [reflexivity|]; intros; split; cbn [rbind]; congruence].
  right. injection D as R <-. exists e, m, plain. split.
  { split; [exact O|]. split; [exact KM|]. split; [exact C|]. split; [exact B12|]. split; [exact L|]. exists key. auto. }
  split; [reflexivity|]. cbn [rbind] in R. pose proof (pread_no_panic (rd_key_frame akm) (decrypted b e m (data_length_at b e m) plain) e (rd_key_frame_NP akm)) as NP.
  destruct (pread (rd_key_frame akm) _ e) as [k|er|]; cbn [map_err] in R; [right; eauto|left; now symmetry|congruence].
Qed.

Lemma in_place_split kck kek b temp akm (with_fcs : bool) r b' : deserialize_in_place hmac unwrap kck kek b temp akm with_fcs = (r, b') ->
  (b' = b /\ length b < 4 /\ with_fcs = true /\ (forall k, r <> Ok k) /\ r <> Err KeyFrameDeserializationFailure) \/
  exists a, deserialize_plain_in_place hmac unwrap kck kek (frame_part with_fcs b) temp akm = (r, a) /\ b' = a ++ fcs_part with_fcs b.
Proof.
  unfold deserialize_in_place, frame_part, fcs_part. destruct with_fcs.
  - destruct (Nat.ltb_spec (length b) 4) as [L|L].
    + intros E. injection E as <- <-. left. do 3 (split; [auto|]). destruct overflow_checks; split; congruence.
    + destruct (deserialize_plain_in_place _ _ _ _ _ _ _) as [r0 a]. intros E. injection E as <- <-. right. exists a. auto.
  - intros ->. right. exists b'. now rewrite app_nil_r.
Qed.
Lemma frame_fcs with_fcs b : frame_part with_fcs b ++ fcs_part with_fcs b = b.
Proof. unfold frame_part, fcs_part. destruct with_fcs; [apply firstn_skipn|apply app_nil_r]. Qed.
Lemma frame_part_wf with_fcs b : wf_bytes b -> wf_bytes (frame_part with_fcs b).
Proof. unfold frame_part. destruct with_fcs; auto using wf_firstn. Qed.

Lemma in_place_refused kck kek b temp akm (with_fcs : bool) er b' : wf_bytes b ->
  deserialize_in_place hmac unwrap kck kek b temp akm with_fcs = (Err er, b') -> er <> KeyFrameDeserializationFailure -> b' = b.
Proof.
  intros W D NE. apply in_place_split in D as [(-> & _)|(a & D & ->)]; [reflexivity|].
  apply plain_in_place_cases in D as [(-> & _)|(e & m & plain & _ & _ & [X|[k X]])]; [apply frame_fcs|congruence|discriminate|now apply frame_part_wf].
Qed.
Lemma in_place_not_encrypted kck kek b temp akm (with_fcs : bool) r b' e : wf_bytes b ->
  deserialize_in_place hmac unwrap kck kek b temp akm with_fcs = (r, b') ->
  eapol_offset (frame_part with_fcs b) e -> ~ has_encrypted_data (info_at (frame_part with_fcs b) e) -> b' = b.
Proof.
  intros W D O NE. apply in_place_split in D as [(-> & _)|(a & D & ->)]; [reflexivity|].
  apply plain_in_place_cases in D as [(-> & _)|(e' & m & plain & (O' & _ & _ & HE & _) & _)]; [apply frame_fcs| |now apply frame_part_wf].
  rewrite (eapol_offset_unique _ _ _ O' O) in HE. tauto.
Qed.
Lemma in_place_late kck kek b temp akm (with_fcs : bool) b' : wf_bytes b ->
  deserialize_in_place hmac unwrap kck kek b temp akm with_fcs = (Err KeyFrameDeserializationFailure, b') ->
  let f := frame_part with_fcs b in
  b' = b \/ exists e m plain, unwraps kck kek f akm e m plain /\ b' = decrypted_in_place f e m plain ++ fcs_part with_fcs b.
Proof.
  intros W D. cbv zeta. apply in_place_split in D as [(-> & _)|(a & D & ->)]; [now left|].
  apply plain_in_place_cases in D as [(-> & _)|(e & m & plain & U & -> & _)]; [left; apply frame_fcs|right; eauto|now apply frame_part_wf].
Qed.
Lemma unwraps_unique kck kek b akm e m plain e' m' plain' : unwraps kck kek b akm e m plain -> unwraps kck kek b akm e' m' plain' ->
  e = e' /\ m = m' /\ plain = plain'.
Proof.
  intros (O & KM & _ & _ & _ & key & K & U) (O' & KM' & _ & _ & _ & key' & K' & U').
  assert (e = e') by (eapply eapol_offset_unique; eassumption). assert (m = m') by congruence. subst. split; [reflexivity|]. split; [reflexivity|].
  injection K' as <-. congruence.
Qed.
Lemma in_place_accepted kck kek b temp akm (with_fcs : bool) k b' : wf_bytes b ->
  deserialize_in_place hmac unwrap kck kek b temp akm with_fcs = (Ok k, b') -> has_encrypted_data (key_information k) ->
  let f := frame_part with_fcs b in
  exists e m, eapol_offset f e /\ length (key_mic k) = m /\ unwraps kck kek f akm e m (key_data k) /\
    b' = decrypted_in_place f e m (key_data k) ++ fcs_part with_fcs b.
Proof.
  intros W D HE. cbv zeta.
  pose proof (f_equal fst D) as DE. rewrite in_place_result in DE. cbn [fst] in DE.
  pose proof (accepted hmac wrap unwrap HM KW _ _ _ _ _ _ _ W DE) as A. cbv zeta in A. change (if with_fcs then firstn (length b - 4) b else b) with (frame_part with_fcs b) in A.
  destruct A as (e & m & v & res & O & KM & LM & _ & _ & LB & _ & _ & _ & EI & P & X). unfold has_encrypted_data in HE. rewrite HE in X. destruct X as (key & K & U).
  exists e, m. split; [exact O|]. split; [exact LM|].
  assert (UN : unwraps kck kek (frame_part with_fcs b) akm e m (key_data k)).
  { split; [exact O|]. split; [exact KM|]. split; [exact P|]. split; [unfold has_encrypted_data; now rewrite <- EI|]. split; [exact LB|]. exists key. auto. }
  split; [exact UN|].
  apply in_place_split in D as [(_ & _ & _ & X & _)|(a & D & ->)]; [now elim (X k)|]. f_equal.
  apply plain_in_place_cases in D as [(_ & X)|(e' & m' & plain & U' & -> & _)]; [| |now apply frame_part_wf].
  - elim (proj2 (X e O ltac:(unfold has_encrypted_data; now rewrite <- EI)) k). reflexivity.
  - destruct (unwraps_unique _ _ _ _ _ _ _ _ _ _ UN U') as (-> & -> & ->). reflexivity.
Qed.
Lemma unwraps_length kck kek b akm e m plain : unwraps kck kek b akm e m plain -> length plain + 8 = data_length_at b e m.
Proof.
  intros (_ & _ & _ & _ & L & key & _ & U). apply (kw_unwrap_length _ _ KW) in U. rewrite between_length in U by lia. lia.
Qed.
Lemma decrypted_length kck kek b akm e m plain : unwraps kck kek b akm e m plain -> length (decrypted_in_place b e m plain) = length b.
Proof.
  intros U. pose proof (unwraps_length _ _ _ _ _ _ _ U). destruct U as (_ & _ & _ & _ & L & _). unfold decrypted_in_place. lens.
  rewrite firstn_length, skipn_length, between_length by lia. lia.
Qed.
Lemma in_place_length kck kek b temp akm (with_fcs : bool) r b' : wf_bytes b ->
  deserialize_in_place hmac unwrap kck kek b temp akm with_fcs = (r, b') -> length b' = length b.
Proof.
  intros W D. apply in_place_split in D as [(-> & _)|(a & D & ->)]; [reflexivity|]. transitivity (length (frame_part with_fcs b ++ fcs_part with_fcs b)); [|now rewrite frame_fcs]. rewrite !app_length. f_equal.
  apply plain_in_place_cases in D as [(-> & _)|(e & m & plain & U & -> & _)]; [reflexivity|eapply decrypted_length; eassumption|now apply frame_part_wf].
Qed.

(** ** The same frame again *)
Lemma again kck kek b temp akm (with_fcs : bool) k b' kek' temp' k' : wf_bytes b ->
  deserialize_in_place hmac unwrap kck kek b temp akm with_fcs = (Ok k, b') -> has_encrypted_data (key_information k) -> has_mic (key_information k) ->
  deserialize_eapol hmac unwrap kck kek' b' temp' akm with_fcs = Ok k' ->
  exists key x y, kck = Some key /\ x <> y /\ firstn (length (key_mic k)) (hmac key x) = firstn (length (key_mic k)) (hmac key y).
Proof.
  intros W D HE HH D2.
  pose proof (f_equal fst D) as DE. rewrite in_place_result in DE. cbn [fst] in DE.
  pose proof (accepted hmac wrap unwrap HM KW _ _ _ _ _ _ _ W DE) as A. cbv zeta in A. change (if with_fcs then firstn (length b - 4) b else b) with (frame_part with_fcs b) in A.
  destruct A as (e0 & m0 & _ & _ & O0 & KM0 & _ & _ & _ & _ & _ & _ & _ & EI & _).
  destruct (in_place_accepted _ _ _ _ _ _ _ _ W D HE) as (e & m & O & LM & U & EB).
  assert (e0 = e) by (eapply eapol_offset_unique; eassumption). subst e0.
  set (f := frame_part with_fcs b) in *. assert (Wf : wf_bytes f) by now apply frame_part_wf.
  pose proof (decrypted_length _ _ _ _ _ _ _ U) as LF. pose proof (unwraps_length _ _ _ _ _ _ _ U) as LP.
  set (f' := decrypted_in_place f e m (key_data k)) in *.
  assert (Wp : wf_bytes (key_data k)).
  { destruct U as (_ & _ & _ & _ & _ & key & _ & U). eapply (kw_unwrap_wf _ _ KW); [|exact U]. now apply between_wf. }
  assert (Wf' : wf_bytes f').
  { unfold f', decrypted_in_place. rewrite !wf_bytes_app. repeat split; try apply be_bytes_wf; try (now apply between_wf); auto using wf_firstn, wf_skipn. }
  assert (Wb' : wf_bytes b').
  { rewrite EB. apply wf_bytes_app. split; [exact Wf'|]. unfold fcs_part. destruct with_fcs; [now apply wf_skipn|constructor]. }
  assert (FP : frame_part with_fcs b' = f').
  { rewrite EB. unfold frame_part, fcs_part. destruct with_fcs; [|apply app_nil_r]. apply firstn_app_exact. rewrite app_length, skipn_length, LF. unfold f, frame_part.
    rewrite firstn_length. assert (4 <= length b); [|lia]. destruct (Nat.lt_ge_cases (length b) 4) as [X|X]; [|exact X]. exfalso.
    unfold deserialize_in_place in D. destruct (Nat.ltb_spec (length b) 4); [destruct overflow_checks; discriminate|lia]. }
  pose proof (accepted hmac wrap unwrap HM KW _ _ _ _ _ _ _ Wb' D2) as A. cbv zeta in A. change (if with_fcs then firstn (length b' - 4) b' else b') with (frame_part with_fcs b') in A. rewrite FP in A.
  destruct A as (e' & m' & _ & _ & O' & KM' & _ & _ & _ & _ & _ & _ & _ & EI' & P' & _).
  destruct U as (_ & KM & P & HE' & LB & key & K & U).
  assert (m' = m) by congruence. subst m'.
  assert (PRE : firstn (e + 2) f = firstn (e + 2) f').
  { unfold f', decrypted_in_place. symmetry. apply firstn_app_exact. rewrite firstn_length. lia. }
  assert (MID : between_bytes f' (e + 4) (e + 81 + m) = between_bytes f (e + 4) (e + 81 + m)).
  { unfold f', decrypted_in_place.
    replace (firstn (e + 2) f ++ be_bytes 2 (N.of_nat (length f - 8 - e - 4)) ++ between_bytes f (e + 4) (e + 81 + m) ++ be_bytes 2 (N.of_nat (length (key_data k))) ++ key_data k ++ skipn (e + 81 + m + 2 + length (key_data k)) f)
      with ((firstn (e + 2) f ++ be_bytes 2 (N.of_nat (length f - 8 - e - 4))) ++ between_bytes f (e + 4) (e + 81 + m) ++ (be_bytes 2 (N.of_nat (length (key_data k))) ++ key_data k ++ skipn (e + 81 + m + 2 + length (key_data k)) f))
      by (now rewrite <- !app_assoc).
    apply between_at; lens; rewrite firstn_length; rewrite ?between_length by lia; lia. }
  assert (e' = e).
  { apply (eapol_offset_unique f'); [exact O'|]. destruct O as (s & HS & -> & L & ET). exists s.
    rewrite <- (header_size_prefix f f'); [|apply (f_equal (firstn 2)) in PRE; rewrite !firstn_firstn in PRE; replace (Nat.min 2 (s + 8 + 2)) with 2 in PRE by lia; exact PRE|now symmetry].
    split; [exact HS|]. split; [reflexivity|]. split; [lia|]. rewrite <- (between_prefix f f' (s + 8 + 2)); [exact ET|exact PRE|lia]. }
  subst e'.
  assert (EII : info_at f' e = info_at f e).
  { unfold info_at. rewrite (between_sub f' (e + 4) (e + 81 + m) (e + 5) (e + 7)), (between_sub f (e + 4) (e + 81 + m) (e + 5) (e + 7)) by lia. now rewrite MID. }
  rewrite EI in HH. destruct (P HH) as (key1 & K1 & M20 & ML & MC).
  destruct (P' ltac:(now rewrite EII)) as (key2 & K2 & _ & ML' & MC').
  assert (key2 = key1) by congruence. subst key2. exists key1. do 2 eexists. split; [exact K1|]. split.
  2:{ rewrite LM. rewrite <- MC. etransitivity; [|exact MC'].
      rewrite (between_sub f (e + 4) (e + 81 + m) (e + 81) (e + 81 + m)), (between_sub f' (e + 4) (e + 81 + m) (e + 81) (e + 81 + m)) by lia. now rewrite MID. }
  intros X. apply app_inj_len in X as [_ X]; [|rewrite !between_length by lia; reflexivity]. apply app_inv_head in X.
  assert (DL : data_length_at f e m = data_length_at f' e m).
  { unfold data_length_at, between_bytes. now rewrite X. }
  assert (DL' : data_length_at f' e m = length (key_data k)).
  { unfold data_length_at, f', decrypted_in_place.
    replace (firstn (e + 2) f ++ be_bytes 2 (N.of_nat (length f - 8 - e - 4)) ++ between_bytes f (e + 4) (e + 81 + m) ++ be_bytes 2 (N.of_nat (length (key_data k))) ++ key_data k ++ skipn (e + 81 + m + 2 + length (key_data k)) f)
      with ((firstn (e + 2) f ++ be_bytes 2 (N.of_nat (length f - 8 - e - 4)) ++ between_bytes f (e + 4) (e + 81 + m)) ++ be_bytes 2 (N.of_nat (length (key_data k))) ++ (key_data k ++ skipn (e + 81 + m + 2 + length (key_data k)) f))
      by (now rewrite <- !app_assoc).
    rewrite between_at by (lens; rewrite firstn_length; rewrite ?between_length by lia; lia).
    rewrite be_val_bytes_small; [apply Nnat.Nat2N.id|].
    pose proof (be_val_bound (between_bytes f (e + 81 + m) (e + 81 + m + 2)) (between_wf _ _ _ Wf)) as B. rewrite between_length in B by lia.
    replace (e + 81 + m + 2 - (e + 81 + m)) with 2 in B by lia. unfold data_length_at in LP. cbn in B |- *. lia. }
  lia.
Qed.
End F.

(** ** Witnesses *)
Lemma in_place_ext {cfg : Cfg} hmac hmac' unwrap unwrap' kck kek b temp akm fcs : (forall k m, hmac k m = hmac' k m) -> (forall k m, unwrap k m = unwrap' k m) ->
  deserialize_in_place hmac unwrap kck kek b temp akm fcs = deserialize_in_place hmac' unwrap' kck kek b temp akm fcs.
Proof.
  intros H U.
  assert (C : forall b e m i, check_mic hmac kck b e m i = check_mic hmac' kck b e m i).
  { intros. unfold check_mic. destruct (ki_key_mic _); [|reflexivity]. do 5 (apply rbind_ext; intro). now rewrite H. }
  assert (D : forall b e m i, decrypt_in_place unwrap kek b e m i temp = decrypt_in_place unwrap' kek b e m i temp).
  { intros. unfold decrypt_in_place. destruct (ki_encrypted_key_data _); [|reflexivity].
    match goal with |- match ?x with _ => _ end = match ?y with _ => _ end => replace y with x; [reflexivity|] end.
    do 5 (apply rbind_ext; intro). destruct (_ <? _); [reflexivity|]. now rewrite U. }
  assert (P : forall b, deserialize_plain_in_place hmac unwrap kck kek b temp akm = deserialize_plain_in_place hmac' unwrap' kck kek b temp akm).
  { intros. unfold deserialize_plain_in_place.
    match goal with |- match ?x with _ => _ end = match ?y with _ => _ end => replace y with x end.
    - match goal with |- match ?x with _ => _ end = _ => destruct x as [[[? ?] ?]|?|] end; [now rewrite D|reflexivity|reflexivity].
    - do 3 (apply rbind_ext; intro). destruct (negb _); [reflexivity|]. do 3 (apply rbind_ext; intro). now rewrite C. }
  unfold deserialize_in_place. destruct fcs; [destruct (_ <? _); [reflexivity|]|]; now rewrite P.
Qed.
Definition test_after : bytes := decrypted_in_place test_frame 32 16 test_data.
Definition wrapped_mic : bytes := Eval vm_compute in aes_wrap test_kek test_mic.
Definition after_hmac : bytes := Eval vm_compute in hmac_sha1_of test_kck (test_blanked test_after).
Definition known_hmac2 : bytes -> bytes -> bytes := from_table [(test_kck, test_blanked test_after, after_hmac)] known_hmac.
Definition known_unwrap2 : bytes -> bytes -> option bytes := from_table [(test_kek, wrapped_mic, Some test_mic); (test_kek, test_mic, None)] known_unwrap.
Lemma known_hmac2_eq k m : hmac_sha1_of k m = known_hmac2 k m.
Proof.
  rewrite known_hmac_eq. apply from_table_eq. apply Forall_cons; [|apply Forall_nil]. cbn [fst snd]. rewrite <- known_hmac_eq. vm_compute. reflexivity.
Qed.
Lemma wrapped_mic_eq : aes_wrap test_kek test_mic = wrapped_mic.
Proof. vm_compute. reflexivity. Qed.
Lemma known_unwrap2_eq k m : aes_unwrap k m = known_unwrap2 k m.
Proof.
  rewrite known_unwrap_eq. apply from_table_eq. apply Forall_cons; [|apply Forall_cons; [|apply Forall_nil]]; cbn [fst snd]; rewrite <- known_unwrap_eq.
  - rewrite <- wrapped_mic_eq. apply (kw_inverse _ _ aes_key_wrap); [apply Nat.leb_le; reflexivity|reflexivity|apply wf_bytesb_spec; reflexivity].
  - vm_compute. reflexivity.
Qed.
Local Ltac tables2 := rewrite ?(in_place_ext _ _ _ _ _ _ _ _ _ _ known_hmac2_eq known_unwrap2_eq), ?(deser_ext _ _ _ _ _ _ _ _ _ _ known_hmac2_eq known_unwrap2_eq).
Lemma twice_witness {cfg : Cfg} :
  deserialize_in_place hmac_sha1_of aes_unwrap (Some test_kck) (Some test_kek) test_frame 100 Ak_Psk false = (Ok (test_key_frame test_mic test_data), test_after) /\
  deserialize_in_place hmac_sha1_of aes_unwrap (Some test_kck) (Some test_kek) test_after 100 Ak_Psk false = (Err InvalidMic, test_after).
Proof. tables2. destruct cfg as [[] [] []]; split; vm_compute; reflexivity. Qed.
(** not a key descriptor of 802.11, and key data that can be decrypted *)
Definition odd_frame : bytes := overwrite (raw_frame 0x1000 16 24 (aes_wrap test_kek test_mic)) 36 [254]%N.
Lemma odd_wf : wf_bytes odd_frame.
Proof. unfold odd_frame. rewrite wrapped_mic_eq. apply wf_bytesb_spec. vm_compute. reflexivity. Qed.
Lemma odd_witness {cfg : Cfg} :
  deserialize_in_place hmac_sha1_of aes_unwrap None (Some test_kek) odd_frame 100 Ak_Psk false =
    (Err KeyFrameDeserializationFailure, decrypted_in_place odd_frame 32 16 test_mic) /\
  decrypted_in_place odd_frame 32 16 test_mic <> odd_frame /\
  deserialize_eapol hmac_sha1_of aes_unwrap None (Some test_kek) (decrypted_in_place odd_frame 32 16 test_mic) 100 Ak_Psk false = Err TemporaryBufferToShort.
Proof.
  unfold odd_frame. rewrite wrapped_mic_eq. tables2.
  repeat split; [destruct cfg as [[] [] []]; vm_compute; reflexivity| |destruct cfg as [[] [] []]; vm_compute; reflexivity].
  intros X. apply (f_equal (fun x => nth 35 x 0%N)) in X. vm_compute in X. discriminate X.
Qed.
Lemma error_refuted {cfg : Cfg} : ~ (forall hmac wrap unwrap kck kek b temp akm with_fcs er b', hmac_sha1 hmac -> key_wrap wrap unwrap -> wf_bytes b ->
  deserialize_in_place hmac unwrap kck kek b temp akm with_fcs = (Err er, b') -> b' = b).
Proof.
  intros F. destruct odd_witness as (D & NE & _). apply NE.
  apply (F hmac_sha1_of aes_wrap aes_unwrap _ _ _ _ _ _ _ _ hmac_sha1_ok aes_key_wrap odd_wf D).
Qed.
Lemma twice_refuted {cfg : Cfg} : ~ (forall hmac wrap unwrap kck kek b temp akm with_fcs k b', hmac_sha1 hmac -> key_wrap wrap unwrap -> wf_bytes b ->
  deserialize_in_place hmac unwrap kck kek b temp akm with_fcs = (Ok k, b') ->
  deserialize_eapol hmac unwrap kck kek b' temp akm with_fcs = Ok k).
Proof.
  intros F. destruct twice_witness as (D & D'). apply (f_equal fst) in D'. rewrite (in_place_result hmac_sha1_of aes_unwrap) in D'. cbn [fst] in D'.
  rewrite (F hmac_sha1_of aes_wrap aes_unwrap _ _ _ _ _ _ _ _ hmac_sha1_ok aes_key_wrap (proj1 (proj2 test_frame_ok)) D) in D'. discriminate.
Qed.
