(** Facts about [deserialize_eapol_data_frame]. *)
From Verif Require Import Base SpecBase BaseFacts StepsFacts Bits BitsFacts Layouts Enums Common CommonFacts Mgmt SpecMgmt MgmtFacts2 SpecElementTypes ElementTypesFacts
  Suites Rsn RsnFacts Data SpecData DataFacts DataFacts2 Eapol SpecEapol EapolFacts KeyMgmt SpecKeyMgmt KeyMgmtFacts KeyMgmtFacts2.
Local Ltac lens := rewrite ?app_length, ?le_bytes_length, ?be_bytes_length, ?ne_bytes_length, ?repeat_length; cbn [length].

Lemma between_length b a c : a <= c <= length b -> length (between_bytes b a c) = c - a.
Proof. intros. unfold between_bytes. rewrite firstn_length, skipn_length. lia. Qed.
Lemma between_split b a c : a <= c -> skipn a b = between_bytes b a c ++ skipn c b.
Proof.
  intros. unfold between_bytes. replace (skipn c b) with (skipn (c - a) (skipn a b)) by (rewrite skipn_skipn_add; f_equal; lia).
  now rewrite firstn_skipn.
Qed.
Lemma between_wf b a c : wf_bytes b -> wf_bytes (between_bytes b a c).
Proof. intros. unfold between_bytes. now apply wf_firstn, wf_skipn. Qed.
Lemma between_mid b a c d : a <= c -> c <= d -> between_bytes b a d = between_bytes b a c ++ between_bytes b c d.
Proof.
  intros. unfold between_bytes. replace (skipn c b) with (skipn (c - a) (skipn a b)) by (rewrite skipn_skipn_add; f_equal; lia).
  set (l := skipn a b). clearbody l. replace (d - a) with ((c - a) + (d - c)) by lia.
  rewrite <- (firstn_skipn (c - a) l) at 1. destruct (Nat.le_gt_cases (length l) (c - a)) as [L|L].
  - rewrite (firstn_all2 l) by exact L. rewrite (skipn_all2 l) by exact L. rewrite app_nil_r, firstn_nil, app_nil_r. apply firstn_all2. lia.
  - rewrite firstn_app, firstn_firstn, firstn_length. f_equal; [f_equal; lia|]. f_equal. lia.
Qed.
Lemma zeros_concat m : m mod 8 = 0 -> concat (repeat (repeat 0%N 8) (m / 8)) = repeat 0%N m.
Proof.
  intros M. rewrite (Nat.div_mod_eq m 8) at 2. rewrite M, Nat.add_0_r. generalize (m / 8). intros n.
  induction n as [|n IH]; [reflexivity|].
  change (repeat (repeat 0%N 8) (S n)) with (repeat 0%N 8 :: repeat (repeat 0%N 8) n). cbn [concat]. rewrite IH. replace (8 * S n) with (8 + 8 * n) by lia. now rewrite repeat_app.
Qed.
Lemma key_mic_len_8 akm m : key_mic_len akm = Some m -> m = 0 \/ m = 16 \/ m = 24.
Proof.
  unfold key_mic_len. destruct (get_suite_type_if_oui_is_ieee _) as [t|]; [|discriminate].
  destruct (_ || _); [intros E; injection E; auto|]. destruct (_ || _); [intros E; injection E; auto|]. destruct (between _ _ _); [intros E; injection E; auto|discriminate].
Qed.

Section F.
Context {cfg : Cfg}.
Lemma pread_be_cases n b off : n <> 0 -> (length b < off + n -> exists e, pread (rd_be n) b off = Err e) /\
  (off + n <= length b -> pread (rd_be n) b off = Ok (be_val (between_bytes b off (off + n)))).
Proof.
  intros Nn. unfold pread, gread. split; intros L.
  - destruct (end_bad off (length b)); [eauto|]. unfold rd_be. destruct (Nat.ltb_spec (length (skipn off b)) n) as [X|X]; [eauto|].
    exfalso. rewrite skipn_length in X. lia.
  - rewrite end_bad_lt by lia. unfold rd_be. destruct (Nat.ltb_spec (length (skipn off b)) n) as [X|X]; [exfalso; rewrite skipn_length in X; lia|].
    unfold between_bytes. do 3 f_equal. lia.
Qed.

(** ** The header *)
Lemma enc_data_header_ne_length h : ok_data_header h -> length (enc_data_header_ne h) + 2 = dh_length h.
Proof.
  intros H. rewrite <- enc_data_header_length by exact H. unfold enc_data_header_ne, enc_data_header. now rewrite !app_length, !ne_bytes_length, !le_bytes_length.
Qed.
Lemma header_size_spec b : wf_bytes b ->
  match pread rd_data_header b 0 with
  | Ok h => header_size b = Some (dh_length h)
  | Err _ => header_size b = None
  | Panic => False
  end.
Proof.
  intros W. unfold pread, gread. cbn [skipn].
  assert (X : match rd_data_header b with Ok (h, _) => header_size b = Some (dh_length h) /\ b <> [] | Err _ => header_size b = None | Panic => False end).
  { destruct (header_size b) as [s|] eqn:HS.
    - unfold header_size in HS. destruct b as [|b0 [|b1 rest]]; try discriminate. destruct (_ && _) eqn:C; [|discriminate]. injection HS as <-.
      apply andb_true_iff in C as [T L]. apply N.eqb_eq in T. apply Nat.leb_le in L.
      destruct (data_header_accept b0 b1 rest W T L) as (h & tail & OK & _ & _ & _ & _ & LH & ->). split; [|discriminate]. f_equal.
      rewrite <- LH. rewrite enc_data_header_ne_length; [reflexivity|exact OK].
    - destruct (data_header_refuse b W) as [e ->]; [|reflexivity]. intros b0 b1 rest ->. unfold header_size in HS.
      destruct (N.eqb_spec ((b0 / 4) mod 4) 2); [|auto]. destruct (Nat.leb_spec (data_header_size b0 b1) (length (b0 :: b1 :: rest))); [discriminate|auto]. }
  destruct (rd_data_header b) as [[h n]|e|]; [|destruct (end_bad _ _); exact X|tauto].
  destruct X as [X NE]. rewrite end_bad_lt by (destruct b; [congruence|cbn; lia]). exact X.
Qed.
End F.

Section D.
Context {cfg : Cfg}.
Variable hmac : bytes -> bytes -> bytes.
Variable unwrap : bytes -> bytes -> option bytes.
Hypothesis HM : forall key m, length (hmac key m) = 20.
Hypothesis UL : forall kek c p, unwrap kek c = Some p -> length p + 8 = length c.

(** ** The MIC *)
Lemma check_mic_eq kck b e m info : m mod 8 = 0 ->
  check_mic hmac kck b e m info =
  if N.testbit info 8 then
    match kck with
    | None => Err MissingKey
    | Some key =>
      if length b <? e + 81 + m then Err BufferTooShort
      else if 20 <? m then Panic
      else if list_eq_dec N.eq_dec (firstn m (hmac key (between_bytes b e (e + 81) ++ repeat 0%N m ++ skipn (e + 81 + m) b))) (between_bytes b (e + 81) (e + 81 + m))
           then Ok tt else Err InvalidMic
    end
  else Ok tt.
Proof.
  intros M. unfold check_mic. rewrite ki_key_mic_bit. destruct (N.testbit info 8); [|reflexivity]. destruct kck as [key|]; [|reflexivity]. cbn [ok_or rbind].
  unfold get_range, get_from. destruct (Nat.leb_spec e (e + 81)) as [_|]; [|lia]. cbn [andb].
  destruct (Nat.leb_spec (e + 81) (length b)) as [L1|L1].
  2:{ destruct (Nat.ltb_spec (length b) (e + 81 + m)); [reflexivity|lia]. }
  cbn [ok_or rbind]. destruct (Nat.leb_spec (e + 81 + m) (length b)) as [L2|L2].
  2:{ destruct (Nat.ltb_spec (length b) (e + 81 + m)); [reflexivity|lia]. }
  destruct (Nat.ltb_spec (length b) (e + 81 + m)) as [|_]; [lia|].
  cbn [ok_or rbind]. rewrite slice_from_ok by lia. cbn [rbind]. rewrite slice_to_ok by (rewrite skipn_length; lia). cbn [rbind].
  unfold slice_to. rewrite HM. rewrite zeros_concat by exact M.
  destruct (Nat.leb_spec m 20) as [L3|L3]; destruct (Nat.ltb_spec 20 m) as [L4|L4]; try lia; [|reflexivity]. cbn [rbind].
  unfold between_bytes. replace (e + 81 + m - (e + 81)) with m by lia. reflexivity.
Qed.

(** ** Decryption *)
Definition decrypted (b : bytes) (e m dl : nat) (plain : bytes) : bytes :=
  firstn (e + 2) b ++ be_bytes 2 (N.of_nat (length b - 8 - e - 4)) ++ between_bytes b (e + 4) (e + 81 + m) ++ be_bytes 2 (N.of_nat (dl - 8)) ++
  plain ++ firstn (length b - (e + 81 + m + 2 + dl)) (skipn (e + 81 + m + 2 + (dl - 8)) b).
Lemma decrypt_eq kek b e m info temp :
  decrypt_key_data unwrap kek b e m info temp =
  if N.testbit info 12 then
    let dl := data_length_at b e m in
    if length b <? e + 81 + m + 2 then Err BufferTooShort
    else if length b <? e + 81 + m + 2 + dl then Panic
    else match kek with
         | None => Err MissingKey
         | Some key =>
           if dl <? 8 then Panic else if temp + 8 <? dl then Panic
           else match unwrap key (between_bytes b (e + 81 + m + 2) (e + 81 + m + 2 + dl)) with
                | None => Err TemporaryBufferToShort
                | Some plain => Ok (decrypted b e m dl plain)
                end
         end
  else Ok b.
Proof.
  unfold decrypt_key_data. rewrite ki_encrypted_bit. destruct (N.testbit info 12); [|reflexivity]. cbv zeta.
  destruct (pread_be_cases 2 b (e + 81 + m)) as [S1 S2]; [discriminate|].
  destruct (Nat.ltb_spec (length b) (e + 81 + m + 2)) as [L|L].
  { destruct (S1 L) as [er ->]. reflexivity. }
  rewrite (S2 L). cbn [map_err rbind]. clear S1 S2. fold (data_length_at b e m). set (dl := data_length_at b e m).
  rewrite slice_from_ok by exact L. cbn [rbind]. unfold get_range. cbn [Nat.leb andb skipn]. rewrite Nat.sub_0_r, skipn_length.
  destruct (Nat.ltb_spec (length b) (e + 81 + m + 2 + dl)) as [L1|L1]; (destruct (Nat.leb_spec dl (length b - (e + 81 + m + 2))) as [L2|L2]; try lia); [reflexivity|].
  cbn [rbind]. destruct kek as [key|]; [|reflexivity]. cbn [ok_or rbind]. unfold usub.
  destruct (Nat.ltb_spec dl 8) as [L3|L3]; (destruct (Nat.leb_spec 8 dl) as [L4|L4]; try lia); [reflexivity|]. cbn [rbind].
  destruct (Nat.ltb_spec temp (dl - 8)) as [L5|L5]; destruct (Nat.ltb_spec (temp + 8) dl) as [L6|L6]; try lia; [reflexivity|].
  replace (firstn dl (skipn (e + 81 + m + 2) b)) with (between_bytes b (e + 81 + m + 2) (e + 81 + m + 2 + dl)) by (unfold between_bytes; f_equal; lia).
  destruct (unwrap key _) as [plain|] eqn:U; [|reflexivity]. cbn [ok_or rbind].
  apply UL in U. rewrite between_length in U by lia.
  (* the buffer in pieces *)
  assert (E : b = firstn (e + 2) b ++ between_bytes b (e + 2) (e + 4) ++ between_bytes b (e + 4) (e + 81 + m) ++ between_bytes b (e + 81 + m) (e + 81 + m + 2) ++
                  between_bytes b (e + 81 + m + 2) (e + 81 + m + 2 + (dl - 8)) ++ skipn (e + 81 + m + 2 + (dl - 8)) b).
  { rewrite <- (between_split b (e + 81 + m + 2)) by lia. rewrite <- (between_split b (e + 81 + m)) by lia. rewrite <- (between_split b (e + 4)) by lia.
    rewrite <- (between_split b (e + 2)) by lia. now rewrite firstn_skipn. }
  unfold decrypted. set (n := length b) in *.
  assert (La : length (firstn (e + 2) b) = e + 2) by (rewrite firstn_length; lia). set (a := firstn (e + 2) b) in *.
  assert (Lb : length (between_bytes b (e + 2) (e + 4)) = 2) by (rewrite between_length by lia; lia). set (q1 := between_bytes b (e + 2) (e + 4)) in *.
  assert (Lc : length (between_bytes b (e + 4) (e + 81 + m)) = 77 + m) by (rewrite between_length by lia; lia). set (q2 := between_bytes b (e + 4) (e + 81 + m)) in *.
  assert (Ld : length (between_bytes b (e + 81 + m) (e + 81 + m + 2)) = 2) by (rewrite between_length by lia; lia). set (q3 := between_bytes b (e + 81 + m) (e + 81 + m + 2)) in *.
  assert (Le : length (between_bytes b (e + 81 + m + 2) (e + 81 + m + 2 + (dl - 8))) = dl - 8) by (rewrite between_length by lia; lia).
  set (q4 := between_bytes b (e + 81 + m + 2) (e + 81 + m + 2 + (dl - 8))) in *.
  assert (Lg : length (skipn (e + 81 + m + 2 + (dl - 8)) b) = n - (e + 81 + m + 2 + (dl - 8))) by (rewrite skipn_length; reflexivity).
  set (q5 := skipn (e + 81 + m + 2 + (dl - 8)) b) in *. clearbody dl.
  assert (Ln : n = length b) by reflexivity. clearbody a q1 q2 q3 q4 q5 n.
  replace b with ((a ++ q1 ++ q2) ++ q3 ++ (q4 ++ q5)) by (rewrite E, <- !app_assoc; reflexivity).
  assert (Lx : length (a ++ q1 ++ q2) = e + 81 + m) by (lens; lia). rewrite <- Lx. unfold wr_be at 1.
  rewrite pwrite_app by (try (apply nonempty_length; lia); lens; lia). cbn [res_unwrap rbind].
  assert (Lq5 : 8 <= length q5) by lia.
  assert (P2 : pwrite (wr_bytes plain) ((a ++ q1 ++ q2) ++ be_bytes 2 (N.of_nat (dl - 8)) ++ q4 ++ q5) (length (a ++ q1 ++ q2) + 2) =
               Ok (((a ++ q1 ++ q2) ++ be_bytes 2 (N.of_nat (dl - 8))) ++ plain ++ q5, length plain)).
  { rewrite (app_assoc (a ++ q1 ++ q2)). replace (length (a ++ q1 ++ q2) + 2) with (length ((a ++ q1 ++ q2) ++ be_bytes 2 (N.of_nat (dl - 8)))) by (lens; lia).
    set (z := (a ++ q1 ++ q2) ++ be_bytes 2 (N.of_nat (dl - 8))). clearbody z. unfold pwrite, gwrite. rewrite end_bad_lt by (lens; lia).
    rewrite skipn_app_exact, firstn_app_exact by reflexivity. unfold wr_bytes.
    destruct (Nat.ltb_spec (length (q4 ++ q5)) (length plain)) as [X|_]; [rewrite app_length in X; lia|].
    rewrite skipn_app_exact by lia. do 2 f_equal. lia. }
  rewrite P2. cbn [res_unwrap rbind]. clear P2.
  assert (Lall : length (((a ++ q1 ++ q2) ++ be_bytes 2 (N.of_nat (dl - 8))) ++ plain ++ q5) = n) by (lens; lia).
  rewrite Lall. destruct (Nat.leb_spec 8 n) as [_|]; [|lia]. cbn [rbind].
  destruct (Nat.leb_spec e (n - 8)) as [_|]; [|lia]. cbn [rbind]. destruct (Nat.leb_spec 4 (n - 8 - e)) as [_|]; [|lia]. cbn [rbind].
  replace (firstn (n - 8) (((a ++ q1 ++ q2) ++ be_bytes 2 (N.of_nat (dl - 8))) ++ plain ++ q5))
    with (a ++ q1 ++ (q2 ++ be_bytes 2 (N.of_nat (dl - 8)) ++ plain ++ firstn (n - (length (a ++ q1 ++ q2) + 2 + dl)) q5)).
  2:{ replace (((a ++ q1 ++ q2) ++ be_bytes 2 (N.of_nat (dl - 8))) ++ plain ++ q5) with ((((a ++ q1 ++ q2) ++ be_bytes 2 (N.of_nat (dl - 8))) ++ plain) ++ q5)
        by (now rewrite <- !app_assoc).
      rewrite (firstn_app (n - 8)). rewrite (firstn_all2 (_ ++ plain)) by (lens; lia). rewrite <- !app_assoc. do 5 f_equal. f_equal. lens. lia. }
  rewrite <- La. unfold wr_be. rewrite pwrite_app by (try (apply nonempty_length; lia); lens; lia). cbn [res_unwrap rbind].
  now rewrite be2_mod.
Qed.

(** ** Everything together *)
Lemma deser_fcs wrap kck kek b temp akm : @deserialize_eapol cfg hmac wrap kck kek b temp akm true =
  if length b <? 4 then if overflow_checks then Panic else Err BufferTooShort
  else deserialize_eapol hmac wrap kck kek (firstn (length b - 4) b) temp akm false.
Proof. unfold deserialize_eapol. destruct (Nat.ltb_spec (length b) 4); [destruct overflow_checks; reflexivity|reflexivity]. Qed.
Lemma skipn_between b s n : between_bytes (skipn s b) 0 n = between_bytes b s (s + n).
Proof. unfold between_bytes. cbn [skipn]. f_equal. lia. Qed.
Lemma deser_offset kck kek b temp akm e : wf_bytes b -> eapol_offset b e ->
  deserialize_eapol hmac unwrap kck kek b temp akm false =
  if length b <? e + 5 then Panic
  else if length b <? e + 7 then Err BufferTooShort
  else match key_mic_len akm with
       | None => Err UnknownAkmSuite
       | Some m =>
         _ <- check_mic hmac kck b e m (info_at b e) ;;
         buffer <- decrypt_key_data unwrap kek b e m (info_at b e) temp ;;
         map_err KeyFrameDeserializationFailure (pread (rd_key_frame akm) buffer e)
       end.
Proof.
  intros W (s & HS & -> & L & ET). unfold deserialize_eapol. cbn [rbind].
  pose proof (header_size_spec b W) as H. destruct (pread rd_data_header b 0) as [h|er|]; [|congruence|tauto].
  rewrite HS in H. injection H as ->. cbn [map_err rbind]. unfold get_from. destruct (Nat.leb_spec (dh_length h + 6) (length b)) as [_|]; [|lia]. cbn [ok_or rbind].
  rewrite (proj2 (pread_be_cases 2 (skipn (dh_length h + 6) b) 0 ltac:(discriminate))) by (rewrite skipn_length; lia). cbn [map_err rbind].
  rewrite skipn_between. replace (dh_length h + 6 + (0 + 2)) with (dh_length h + 8) by lia. rewrite ET. change (be_val [0x88; 0x8e]%N) with 0x888e%N. cbn [N.eqb Pos.eqb negb].
  unfold slice_from. destruct (Nat.ltb_spec (length b) (dh_length h + 8 + 5)) as [L5|L5]; (destruct (Nat.leb_spec (dh_length h + 8 + 5) (length b)) as [X|X]; try lia); [reflexivity|].
  cbn [rbind]. destruct (pread_be_cases 2 (skipn (dh_length h + 8 + 5) b) 0 ltac:(discriminate)) as [P1 P2]. rewrite skipn_length in *.
  destruct (Nat.ltb_spec (length b) (dh_length h + 8 + 7)) as [L7|L7].
  - destruct P1 as [er ->]; [lia|]. reflexivity.
  - rewrite P2 by lia. cbn [map_err rbind]. rewrite skipn_between. replace (dh_length h + 8 + 5 + (0 + 2)) with (dh_length h + 8 + 7) by lia.
    fold (info_at b (dh_length h + 8)). destruct (key_mic_len akm); reflexivity.
Qed.
Lemma deser_no_offset kck kek b temp akm : wf_bytes b -> (forall e, ~ eapol_offset b e) ->
  exists er, deserialize_eapol hmac unwrap kck kek b temp akm false = Err er.
Proof.
  intros W NO. unfold deserialize_eapol. cbn [rbind].
  pose proof (header_size_spec b W) as H. destruct (pread rd_data_header b 0) as [h|er|]; [|cbn [map_err rbind]; eauto|tauto].
  cbn [map_err rbind]. unfold get_from. destruct (Nat.leb_spec (dh_length h + 6) (length b)) as [L|]; [|cbn [ok_or rbind]; eauto]. cbn [ok_or rbind].
  destruct (pread_be_cases 2 (skipn (dh_length h + 6) b) 0 ltac:(discriminate)) as [P1 P2]. rewrite skipn_length in *.
  destruct (Nat.lt_ge_cases (length b) (dh_length h + 8)) as [L8|L8].
  - destruct P1 as [er ->]; [lia|]. cbn [map_err rbind]. eauto.
  - rewrite P2 by lia. cbn [map_err rbind]. rewrite skipn_between. replace (dh_length h + 6 + (0 + 2)) with (dh_length h + 8) by lia.
    destruct (N.eqb_spec (be_val (between_bytes b (dh_length h + 6) (dh_length h + 8))) 0x888e) as [E|]; [|cbn [negb]; eauto].
    exfalso. apply (NO (dh_length h + 8)). exists (dh_length h). split; [exact H|]. split; [reflexivity|]. split; [exact L8|].
    rewrite <- (be_bytes_val (between_bytes b (dh_length h + 6) (dh_length h + 8))) by (now apply between_wf).
    rewrite between_length by lia. replace (dh_length h + 8 - (dh_length h + 6)) with 2 by lia. rewrite E. reflexivity.
Qed.
Lemma eapol_offset_dec b : wf_bytes b -> (exists e, eapol_offset b e) \/ (forall e, ~ eapol_offset b e).
Proof.
  intros W. unfold eapol_offset. destruct (header_size b) as [s|]; [|right; intros e (s & X & _); discriminate].
  destruct (Nat.le_gt_cases (s + 8) (length b)) as [L|L].
  - destruct (list_eq_dec N.eq_dec (between_bytes b (s + 6) (s + 8)) [0x88; 0x8e]%N) as [E|E].
    + left. exists (s + 8), s. auto.
    + right. intros e (s' & X & _ & _ & Y). injection X as <-. tauto.
  - right. intros e (s' & X & -> & Y & _). injection X as <-. lia.
Qed.
Lemma eapol_offset_unique b e e' : eapol_offset b e -> eapol_offset b e' -> e = e'.
Proof. intros (s & A & -> & _) (s' & B & -> & _). rewrite A in B. injection B as ->. reflexivity. Qed.
Lemma check_mic_ok kck b e m : m mod 8 = 0 -> check_mic hmac kck b e m (info_at b e) = Ok tt <-> passes_mic hmac kck b e m.
Proof.
  intros M. rewrite check_mic_eq by exact M. unfold passes_mic, has_mic, mic_correct. destruct (N.testbit (info_at b e) 8).
  2:{ split; [discriminate|reflexivity]. }
  destruct kck as [key|]. 2:{ split; [discriminate|]. intros H. destruct (H eq_refl) as (key & X & _). discriminate. }
  destruct (Nat.ltb_spec (length b) (e + 81 + m)) as [L|L].
  { split; [discriminate|]. intros H. destruct (H eq_refl) as (key' & _ & _ & X & _). lia. }
  destruct (Nat.ltb_spec 20 m) as [L2|L2].
  { split; [discriminate|]. intros H. destruct (H eq_refl) as (key' & _ & X & _). lia. }
  destruct (list_eq_dec _ _ _) as [E|E]; split; try discriminate; try reflexivity.
  - intros _ _. exists key. auto.
  - intros H. destruct (H eq_refl) as (key' & X & _ & _ & Y). injection X as <-. congruence.
Qed.
Theorem deser_panics kck kek b temp akm : wf_bytes b ->
  deserialize_eapol hmac unwrap kck kek b temp akm false = Panic <-> deserialize_panics hmac kck kek b temp akm.
Proof.
  intros W. destruct (eapol_offset_dec b W) as [[e O]|NO].
  2:{ destruct (deser_no_offset kck kek b temp akm W NO) as [er ->]. split; [discriminate|]. intros []; exfalso; eapply NO; eassumption. }
  assert (U : forall e', eapol_offset b e' -> e' = e) by (intros; eapply eapol_offset_unique; eassumption).
  rewrite (deser_offset _ _ _ _ _ e W O).
  destruct (Nat.ltb_spec (length b) (e + 5)) as [L5|L5]; [split; [intros _; now apply (panic_short _ _ _ _ _ _ e)|reflexivity]|].
  destruct (Nat.ltb_spec (length b) (e + 7)) as [L7|L7].
  { split; [discriminate|]. intros [e' O'|e' key m O'|e' m O'|e' m O'|e' m O']; apply U in O'; subst; intros; lia. }
  destruct (key_mic_len akm) as [m|] eqn:KM.
  2:{ split; [discriminate|]. intros []; congruence || (match goal with O' : eapol_offset _ _ |- _ => apply U in O'; subst end; lia). }
  pose proof (key_mic_len_8 _ _ KM) as M8. assert (M : m mod 8 = 0) by (destruct M8 as [->|[->| ->]]; reflexivity).
  pose proof (check_mic_ok kck b e m M) as CO.
  assert (NP : forall x, map_err KeyFrameDeserializationFailure (pread (rd_key_frame akm) x e) <> Panic).
  { intros x. pose proof (pread_no_panic (rd_key_frame akm) x e (rd_key_frame_NP akm)). destruct (pread _ x e); cbn; congruence. }
  destruct (check_mic hmac kck b e m (info_at b e)) as [[]|er|] eqn:C; cbn [rbind].
  - (* the MIC is fine *)
    assert (PM : passes_mic hmac kck b e m) by now apply CO.
    assert (NM : forall key, has_mic (info_at b e) -> kck = Some key -> m <= 20).
    { intros key HH _. destruct (PM HH) as (? & _ & X & _). exact X. }
    rewrite decrypt_eq. destruct (N.testbit (info_at b e) 12) eqn:B12.
    2:{ cbn [rbind]. split; [intros X; now apply NP in X|].
        intros [e' O' L|e' key m' O' HH HK KM' L L'|e' m' O' KM' P HE|e' m' O' KM' P HE|e' m' O' KM' P HE]; apply U in O'; subst;
          try (unfold has_encrypted_data in HE; congruence); try lia.
        rewrite KM in KM'. injection KM' as <-. specialize (NM key HH eq_refl). lia. }
    cbv zeta. set (dl := data_length_at b e m).
    assert (BACK : forall P : Prop, (length b < e + 81 + m + 2 + dl /\ e + 81 + m + 2 <= length b -> P) -> (kek <> None -> dl < 8 -> e + 81 + m + 2 <= length b -> P) ->
      (kek <> None -> temp + 8 < dl -> e + 81 + m + 2 + dl <= length b -> P) -> deserialize_panics hmac kck kek b temp akm -> P).
    { intros P P1 P2 P3 [e' O' L|e' key m' O' HH HK KM' L L'|e' m' O' KM' PP HE|e' m' O' KM' PP HE|e' m' O' KM' PP HE]; apply U in O'; subst;
        rewrite ?KM in *; try (injection KM' as <-); try (fold dl in *); auto; try lia.
      specialize (NM key HH eq_refl). lia. }
    destruct (Nat.ltb_spec (length b) (e + 81 + m + 2)) as [L1|L1].
    { cbn [rbind]. split; [discriminate|]. apply BACK; intros; lia. }
    destruct (Nat.ltb_spec (length b) (e + 81 + m + 2 + dl)) as [L2|L2].
    { cbn [rbind]. split; [intros _|reflexivity]. now apply (panic_data _ _ _ _ _ _ e m). }
    destruct kek as [key|].
    2:{ cbn [rbind]. split; [discriminate|]. apply BACK; intros; try congruence; lia. }
    destruct (Nat.ltb_spec dl 8) as [L3|L3].
    { cbn [rbind]. split; [intros _|reflexivity]. now apply (panic_length _ _ _ _ _ _ e m). }
    destruct (Nat.ltb_spec (temp + 8) dl) as [L4|L4].
    { cbn [rbind]. split; [intros _|reflexivity]. now apply (panic_temp _ _ _ _ _ _ e m). }
    split; [|apply BACK; intros; lia].
    destruct (unwrap _ _); cbn [rbind]; [intros X; now apply NP in X|discriminate].
  - split; [discriminate|]. intros P. exfalso. rewrite check_mic_eq in C by exact M.
    destruct P as [e' O' L|e' key m' O' HH HK KM' L L'|e' m' O' KM' PP HE|e' m' O' KM' PP HE|e' m' O' KM' PP HE]; apply U in O'; subst; rewrite ?KM in *;
      try (injection KM' as <-); try lia; try (apply CO in PP; congruence).
    unfold has_mic in HH. rewrite HH in C. destruct (Nat.ltb_spec (length b) (e + 81 + m)); [lia|]. destruct (Nat.ltb_spec 20 m); [discriminate|lia].
  - split; [intros _|reflexivity]. rewrite check_mic_eq in C by exact M. destruct (N.testbit (info_at b e) 8) eqn:B8; [|discriminate].
    destruct kck as [key|]; [|discriminate]. destruct (Nat.ltb_spec (length b) (e + 81 + m)); [discriminate|].
    destruct (Nat.ltb_spec 20 m); [|destruct (list_eq_dec _ _ _); discriminate]. now apply (panic_mic _ _ _ _ _ _ e key m).
Qed.
End D.
