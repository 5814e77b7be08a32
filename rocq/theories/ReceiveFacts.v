(** The result of [deserialize_eapol_data_frame] for every frame. *)
From Verif Require Import Base SpecBase BaseFacts StepsFacts Bits BitsFacts Layouts Enums Common CommonFacts Mgmt SpecMgmt MgmtFacts2 SpecElementTypes ElementTypesFacts
  Suites Rsn RsnFacts Data SpecData DataFacts DataFacts2 Eapol SpecEapol EapolFacts KeyMgmt SpecKeyMgmt KeyMgmtFacts KeyMgmtFacts2 KeyMgmtFacts3 KeyMgmtFacts4 KeyMgmtFacts5 KeyMgmtFacts6.
Local Ltac lens := rewrite ?app_length, ?le_bytes_length, ?be_bytes_length, ?ne_bytes_length, ?repeat_length; cbn [length].

Lemma between_firstn p a c n : c <= n -> between_bytes (firstn n p) a c = between_bytes p a c.
Proof. intros L. unfold between_bytes. rewrite skipn_firstn_comm, firstn_firstn. f_equal. lia. Qed.
Lemma nth_between (p : bytes) i : i < length p -> between_bytes p i (i + 1) = [nth i p 0%N].
Proof.
  revert i. induction p as [|x p IH]; intros i L; [cbn in L; lia|]. destruct i as [|i].
  - reflexivity.
  - cbn [length] in L. change (between_bytes (x :: p) (S i) (S i + 1)) with (firstn (S i + 1 - S i) (skipn i p)).
    replace (S i + 1 - S i) with (i + 1 - i) by lia. apply IH. lia.
Qed.
Lemma nth_firstn_lt (p : bytes) n i : i < n -> nth i (firstn n p) 0%N = nth i p 0%N.
Proof.
  revert n i. induction p as [|x p IH]; intros n i L; [now rewrite firstn_nil|]. destruct n as [|n]; [lia|]. destruct i as [|i]; [reflexivity|].
  cbn [firstn nth]. apply IH. lia.
Qed.

Section R.
Context {cfg : Cfg}.
Lemma gread_bytes_eq n b off : (length b < off + n -> exists e, gread (rd_bytes n) b off = Err e) /\
  (off + n <= length b -> off < length b \/ strict_end = false -> gread (rd_bytes n) b off = Ok (between_bytes b off (off + n), off + n)).
Proof.
  unfold gread, rd_bytes. split; intros L.
  - destruct (end_bad off (length b)) eqn:EB; [eauto|]. apply end_bad_le in EB. destruct (Nat.ltb_spec (length (skipn off b)) n) as [X|X]; [eauto|]. exfalso. rewrite skipn_length in X. lia.
  - intros S. assert (EB : end_bad off (length b) = false).
    { unfold end_bad. destruct strict_end; [apply Nat.leb_gt; destruct S; [lia|discriminate]|apply Nat.ltb_ge; lia]. }
    rewrite EB. destruct (Nat.ltb_spec (length (skipn off b)) n) as [X|X]; [exfalso; rewrite skipn_length in X; lia|].
    unfold between_bytes. do 3 f_equal. lia.
Qed.
Lemma gread_be_eq n b off : n <> 0 -> (length b < off + n -> exists e, gread (rd_be n) b off = Err e) /\
  (off + n <= length b -> gread (rd_be n) b off = Ok (be_val (between_bytes b off (off + n)), off + n)).
Proof.
  intros Nn. unfold gread, rd_be. split; intros L.
  - destruct (end_bad off (length b)); [eauto|]. destruct (Nat.ltb_spec (length (skipn off b)) n) as [X|X]; [eauto|]. exfalso. rewrite skipn_length in X. lia.
  - rewrite end_bad_lt by lia. destruct (Nat.ltb_spec (length (skipn off b)) n) as [X|X]; [exfalso; rewrite skipn_length in X; lia|].
    unfold between_bytes. do 4 f_equal. lia.
Qed.
Lemma gread_u8_eq b off : (length b <= off -> exists e, gread rd_u8 b off = Err e) /\
  (off < length b -> gread rd_u8 b off = Ok (nth off b 0%N, off + 1)).
Proof.
  unfold gread, rd_u8. split; intros L.
  - destruct (end_bad off (length b)); [eauto|]. rewrite skipn_all2 by lia. eauto.
  - rewrite end_bad_lt by lia. pose proof (nth_between b off L) as E. unfold between_bytes in E. replace (off + 1 - off) with 1 in E by lia.
    destruct (skipn off b) as [|x r]; [discriminate|]. cbn in E. injection E as ->. reflexivity.
Qed.
Lemma key_frame_complete_spec strict m p : key_frame_complete strict m p = true <->
  nth 1 p 0%N = 3%N /\ nth 4 p 0%N = 2%N /\ 83 + m + data_length_at p 0 m <= 4 + N.to_nat (be_val (between_bytes p 2 4)) <= length p /\
  (strict = false \/ data_length_at p 0 m <> 0 \/ 83 + m + data_length_at p 0 m < 4 + N.to_nat (be_val (between_bytes p 2 4))).
Proof.
  unfold key_frame_complete. cbv zeta. rewrite !andb_true_iff, !orb_true_iff, !negb_true_iff, !N.eqb_eq, !Nat.leb_le, Nat.eqb_neq, Nat.ltb_lt. tauto.
Qed.
Lemma rd_key_frame_eq akm m p : key_mic_len akm = Some m ->
  if key_frame_complete strict_end m p then rd_key_frame akm p = Ok (key_frame_in m p, 83 + m + data_length_at p 0 m)
  else exists er, rd_key_frame akm p = Err er.
Proof.
  intros KM. pose proof (key_frame_complete_spec strict_end m p) as S. unfold key_frame_in. cbv zeta. unfold rd_key_frame. rewrite KM.
  set (dl := data_length_at p 0 m) in *. set (len := N.to_nat (be_val (between_bytes p 2 4))) in *.
  Local Ltac fails S := match goal with |- if ?K then _ else _ => destruct K; [exfalso; apply proj1 in S; specialize (S eq_refl); try (destruct strict_end; intuition (congruence || lia)); intuition (congruence || lia)|eexists; reflexivity] end.
  destruct (Nat.le_gt_cases (length p) 0) as [L|L]; [destruct (proj1 (gread_u8_eq p 0) L) as [er ->]; fails S|].
  rewrite (proj2 (gread_u8_eq p 0) L). cbn [rbind]. change (0 + 1) with 1.
  destruct (Nat.le_gt_cases (length p) 1) as [L1|L1]; [destruct (proj1 (gread_u8_eq p 1) L1) as [er ->]; fails S|].
  rewrite (proj2 (gread_u8_eq p 1) L1). cbn [rbind]. change (1 + 1) with 2.
  destruct (N.eqb_spec (nth 1 p 0%N) 3) as [T|T]; cbn [negb]; [|fails S].
  destruct (Nat.lt_ge_cases (length p) (2 + 2)) as [L2|L2]; [destruct (proj1 (gread_be_eq 2 p 2 ltac:(discriminate)) L2) as [er ->]; fails S|].
  rewrite (proj2 (gread_be_eq 2 p 2 ltac:(discriminate)) L2). cbn [rbind]. change (2 + 2) with 4. fold len.
  unfold pread.
  destruct (Nat.lt_ge_cases (length p) (0 + (len + 4))) as [L3|L3]; [destruct (proj1 (gread_bytes_eq (len + 4) p 0) L3) as [er ->]; fails S|].
  rewrite (proj2 (gread_bytes_eq (len + 4) p 0) L3) by (left; lia). cbn [rbind].
  assert (EP : between_bytes p 0 (0 + (len + 4)) = firstn (len + 4) p) by (unfold between_bytes; cbn [skipn]; f_equal; lia). rewrite EP. clear EP.
  assert (LB : length (firstn (len + 4) p) = len + 4) by (rewrite firstn_length; lia).
  destruct (Nat.le_gt_cases (len + 4) 4) as [L4|L4]; [rewrite <- LB in L4; destruct (proj1 (gread_u8_eq _ 4) L4) as [er ->]; rewrite LB in L4; fails S|].
  rewrite (proj2 (gread_u8_eq (firstn (len + 4) p) 4)) by lia. cbn [rbind]. change (4 + 1) with 5. rewrite nth_firstn_lt by lia.
  destruct (N.eqb_spec (nth 4 p 0%N) 2) as [D|D]; cbn [negb]; [|fails S].
  Local Ltac be n o S LB len p := let L := fresh "L" in
    destruct (Nat.lt_ge_cases (len + 4) (o + n)) as [L|L];
    [ destruct (proj1 (gread_be_eq n (firstn (len + 4) p) o ltac:(discriminate)) ltac:(rewrite LB; exact L)) as [er ->]; fails S
    | rewrite (proj2 (gread_be_eq n (firstn (len + 4) p) o ltac:(discriminate)) ltac:(rewrite LB; exact L)); cbn [rbind]; rewrite between_firstn by exact L ].
  Local Ltac by_ n o S LB len p := let L := fresh "L" in
    destruct (Nat.lt_ge_cases (len + 4) (o + n)) as [L|L];
    [ destruct (proj1 (gread_bytes_eq n (firstn (len + 4) p) o) ltac:(rewrite LB; exact L)) as [er ->]; fails S
    | rewrite (proj2 (gread_bytes_eq n (firstn (len + 4) p) o) ltac:(rewrite LB; exact L)) by (left; lia); cbn [rbind]; rewrite between_firstn by exact L ].
  be 2 5 S LB len p. change (5 + 2) with 7.
  be 2 7 S LB len p. change (7 + 2) with 9.
  be 8 9 S LB len p. change (9 + 8) with 17.
  by_ 32 17 S LB len p. change (17 + 32) with 49.
  be 16 49 S LB len p. change (49 + 16) with 65.
  be 8 65 S LB len p. change (65 + 8) with 73. change (73 + 8) with 81.
  destruct (Nat.lt_ge_cases (len + 4) (81 + m + 2)) as [L11|L11].
  { destruct (Nat.lt_ge_cases (len + 4) (81 + m)) as [L12|L12].
    - destruct (proj1 (gread_bytes_eq m (firstn (len + 4) p) 81) ltac:(rewrite LB; exact L12)) as [er ->]. fails S.
    - destruct (gread (rd_bytes m) (firstn (len + 4) p) 81) as [[x o]|er|] eqn:G.
      + cbn [rbind]. unfold gread in G. destruct (end_bad _ _); [discriminate|]. unfold rd_bytes in G. destruct (_ <? _); [discriminate|]. assert (O : o = 81 + m) by congruence. rewrite O. clear O.
        destruct (proj1 (gread_be_eq 2 (firstn (len + 4) p) (81 + m) ltac:(discriminate)) ltac:(rewrite LB; exact L11)) as [er ->]. fails S.
      + fails S.
      + exfalso. unfold gread in G. destruct (end_bad _ _); [discriminate|]. unfold rd_bytes in G. destruct (_ <? _); discriminate. }
  rewrite (proj2 (gread_bytes_eq m (firstn (len + 4) p) 81)) by (rewrite ?LB; first [lia|left; lia]). cbn [rbind]. rewrite between_firstn by lia.
  be 2 (81 + m) S LB len p.
  assert (DL : N.to_nat (be_val (between_bytes p (81 + m) (81 + m + 2))) = dl) by reflexivity. rewrite DL.
  replace (81 + m + 2) with (83 + m) in * by lia.
  destruct (Nat.lt_ge_cases (len + 4) (83 + m + dl)) as [L12|L12].
  { destruct (proj1 (gread_bytes_eq dl (firstn (len + 4) p) (83 + m)) ltac:(rewrite LB; exact L12)) as [er ->]. fails S. }
  destruct (key_frame_complete strict_end m p).
  - rewrite (proj2 (gread_bytes_eq dl (firstn (len + 4) p) (83 + m))).
    + cbn [rbind]. rewrite between_firstn by lia. reflexivity.
    + rewrite LB. exact L12.
    + rewrite LB. destruct S as [S _]. specialize (S eq_refl). destruct S as (_ & _ & _ & [S|[S|S]]); [right; exact S|left; lia|left; lia].
  - unfold gread. destruct (end_bad (83 + m) (length (firstn (len + 4) p))) eqn:EB; [cbn [rbind]; eauto|].
    exfalso. assert (X : false = true); [|discriminate]. apply S. split; [exact T|]. split; [exact D|]. split; [lia|].
    unfold end_bad in EB. rewrite LB in EB. destruct strict_end; [|left; reflexivity]. apply Nat.leb_gt in EB.
    destruct (Nat.eq_dec dl 0); [right; right; lia|right; left; assumption].
Qed.
Lemma read_outcome_eq akm m b e : key_mic_len akm = Some m ->
  map_err KeyFrameDeserializationFailure (pread (rd_key_frame akm) b e) = read_outcome strict_end m (skipn e b).
Proof.
  intros KM. unfold pread, gread, read_outcome. pose proof (rd_key_frame_eq akm m (skipn e b) KM) as R.
  destruct (end_bad e (length b)) eqn:EB.
  - assert (L : length b <= e).
    { unfold end_bad in EB. destruct strict_end; [now apply Nat.leb_le in EB|apply Nat.ltb_lt in EB; lia]. }
    rewrite skipn_all2 in * by exact L. destruct (key_frame_complete strict_end m []) eqn:K; [|reflexivity]. discriminate K.
  - destruct (key_frame_complete _ _ _); [now rewrite R|destruct R as [er ->]; reflexivity].
Qed.
End R.

Section D.
Context {cfg : Cfg}.
Variable hmac : bytes -> bytes -> bytes.
Variable unwrap : bytes -> bytes -> option bytes.
Hypothesis HM : forall key m, length (hmac key m) = 20.
Hypothesis UL : forall kek c p, unwrap kek c = Some p -> length p + 8 = length c.
Lemma decrypted_firstn b e m dl plain : e + 81 + m + 2 + dl <= length b -> length plain + 8 = dl ->
  decrypted b e m dl plain = firstn (length b - 8) (decrypted_in_place b e m plain).
Proof.
  intros L P. unfold decrypted, decrypted_in_place. replace (dl - 8) with (length plain) by lia.
  set (a := firstn (e + 2) b). assert (La : length a = e + 2) by (unfold a; rewrite firstn_length; lia).
  set (c := between_bytes b (e + 4) (e + 81 + m)). assert (Lc : length c = 77 + m) by (unfold c; rewrite between_length by lia; lia).
  set (t := skipn (e + 81 + m + 2 + length plain) b).
  replace (a ++ be_bytes 2 (N.of_nat (length b - 8 - e - 4)) ++ c ++ be_bytes 2 (N.of_nat (length plain)) ++ plain ++ t)
    with ((a ++ be_bytes 2 (N.of_nat (length b - 8 - e - 4)) ++ c ++ be_bytes 2 (N.of_nat (length plain)) ++ plain) ++ t) by (now rewrite <- !app_assoc).
  rewrite (firstn_app (length b - 8)). rewrite (firstn_all2 (a ++ be_bytes 2 (N.of_nat (length b - 8 - e - 4)) ++ c ++ be_bytes 2 (N.of_nat (length plain)) ++ plain)) by (lens; lia). rewrite <- !app_assoc. do 5 f_equal.
  f_equal. rewrite !app_length, !be_bytes_length. rewrite La, Lc. lia.
Qed.
Theorem receive_eq kck kek b temp akm : wf_bytes b ->
  deserialize_eapol hmac unwrap kck kek b temp akm false = receive_outcome strict_end hmac unwrap kck kek b temp akm.
Proof.
  intros W. unfold receive_outcome. pose proof (header_size_spec b W) as H. destruct (header_size b) as [s|] eqn:HS.
  2:{ unfold deserialize_eapol. cbn [rbind]. destruct (pread rd_data_header b 0) as [h|er|]; [discriminate|reflexivity|tauto]. }
  cbv zeta.
  assert (NE : (length b < s + 8 -> deserialize_eapol hmac unwrap kck kek b temp akm false = Err BufferTooShort) /\
    (s + 8 <= length b -> between_bytes b (s + 6) (s + 8) <> [0x88; 0x8e]%N -> deserialize_eapol hmac unwrap kck kek b temp akm false = Err EtherTypeNotEapol)).
  { unfold deserialize_eapol. cbn [rbind]. destruct (pread rd_data_header b 0) as [h|er|]; [|discriminate|tauto]. injection H as ->. cbn [map_err rbind].
    unfold get_from. destruct (pread_be_cases 2 (skipn (dh_length h + 6) b) 0 ltac:(discriminate)) as [P1 P2]. rewrite skipn_length in *. split.
    - intros L. destruct (Nat.leb_spec (dh_length h + 6) (length b)) as [L6|]; [|reflexivity]. cbn [ok_or rbind]. destruct P1 as [er ->]; [lia|]. reflexivity.
    - intros L NE. destruct (Nat.leb_spec (dh_length h + 6) (length b)) as [L6|]; [|lia]. cbn [ok_or rbind]. rewrite P2 by lia. cbn [map_err rbind].
      rewrite (skipn_between hmac unwrap HM UL). replace (dh_length h + 6 + (0 + 2)) with (dh_length h + 8) by lia.
      destruct (N.eqb_spec (be_val (between_bytes b (dh_length h + 6) (dh_length h + 8))) 0x888e) as [E|]; [|reflexivity]. exfalso. apply NE.
      rewrite <- (be_bytes_val (between_bytes b (dh_length h + 6) (dh_length h + 8))) by (now apply between_wf).
      rewrite between_length by lia. replace (dh_length h + 8 - (dh_length h + 6)) with 2 by lia. rewrite E. reflexivity. }
  destruct (Nat.ltb_spec (length b) (s + 8)) as [L8|L8]; [now apply NE|]. destruct (list_eq_dec N.eq_dec _ _) as [ET|ET]; [|now apply NE]. clear NE H.
  set (e := s + 8) in *. assert (O : eapol_offset b e) by (exists s; auto).
  rewrite (deser_offset hmac unwrap HM UL _ _ _ _ _ e W O). destruct (length b <? e + 5); [reflexivity|]. destruct (length b <? e + 7); [reflexivity|].
  destruct (key_mic_len akm) as [m|] eqn:KM; [|reflexivity]. clearbody e. unfold packet_outcome. cbv zeta.
  pose proof (key_mic_len_8 _ _ KM) as M8. assert (M : m mod 8 = 0) by (destruct M8 as [->|[->| ->]]; reflexivity).
  rewrite (check_mic_eq hmac unwrap HM UL) by exact M. rewrite (decrypt_eq hmac unwrap HM UL). cbv zeta. set (dl := data_length_at b e m).
  replace (e + 83 + m) with (e + 81 + m + 2) by lia.
  match goal with |- _ = (if _ then match _ with Some _ => if _ then _ else if _ then _ else if _ then ?x else _ | None => _ end else _) => set (after := x) end.
  match goal with |- (_ <- _ ;; ?x) = _ => assert (AF : x = after) end.
  { unfold after. destruct (N.testbit (info_at b e) 12); cbn [rbind]; [|now apply read_outcome_eq].
    destruct (length b <? e + 81 + m + 2); [reflexivity|]. destruct (Nat.ltb_spec (length b) (e + 81 + m + 2 + dl)) as [|L]; [reflexivity|].
    destruct kek as [key|]; [|reflexivity]. destruct (Nat.ltb_spec dl 8) as [|L9]; [reflexivity|].
    destruct (Nat.ltb_spec (temp + 8) dl); destruct (Nat.ltb_spec temp (dl - 8)); try lia; [reflexivity|].
    destruct (unwrap key _) as [plain|] eqn:U; [|reflexivity]. cbn [rbind]. apply UL in U. rewrite between_length in U by lia.
    rewrite decrypted_firstn by lia. now apply read_outcome_eq. }
  rewrite AF. clearbody after. destruct (N.testbit (info_at b e) 8); [|reflexivity]. destruct kck as [key|]; [|reflexivity].
  destruct (length b <? e + 81 + m); [reflexivity|]. destruct (20 <? m); [reflexivity|].
  destruct (list_eq_dec _ _ _) as [E|E]; destruct (list_eq_dec _ _ _) as [E'|E']; try reflexivity; exfalso; congruence.
Qed.
End D.

Lemma receive_exact {cfg : Cfg} hmac wrap unwrap (HM : hmac_sha1 hmac) (KW : key_wrap wrap unwrap) kck kek b temp akm (with_fcs : bool) : wf_bytes b ->
  deserialize_eapol hmac unwrap kck kek b temp akm with_fcs =
  if with_fcs && (length b <? 4) then if overflow_checks then Panic else Err BufferTooShort
  else receive_outcome strict_end hmac unwrap kck kek (frame_part with_fcs b) temp akm.
Proof.
  intros W. destruct with_fcs; cbn [andb frame_part].
  - rewrite deser_fcs. destruct (length b <? 4); [reflexivity|].
    apply (receive_eq hmac unwrap (hmac_length _ HM) (kw_unwrap_length _ _ KW)). now apply wf_firstn.
  - now apply (receive_eq hmac unwrap (hmac_length _ HM) (kw_unwrap_length _ _ KW)).
Qed.
Lemma read_exact {cfg : Cfg} akm p k n : rd_key_frame akm p = Ok (k, n) <->
  exists m, key_mic_len akm = Some m /\ key_frame_complete strict_end m p = true /\ k = key_frame_in m p /\ n = 83 + m + data_length_at p 0 m.
Proof.
  destruct (key_mic_len akm) as [m|] eqn:KM.
  - pose proof (rd_key_frame_eq akm m p KM) as R. destruct (key_frame_complete strict_end m p) eqn:K.
    + rewrite R. split; [intros E; exists m; split; [reflexivity|]; split; [exact K|]; split; congruence|]. intros (m' & E & _ & -> & ->). injection E as <-. reflexivity.
    + destruct R as [er ->]. split; [discriminate|]. intros (m' & E & X & _). injection E as <-. congruence.
  - split; [|intros (m & E & _); discriminate]. intros E. exfalso. unfold rd_key_frame in E. rewrite KM in E.
    repeat match goal with H : rbind ?x _ = Ok _ |- _ => destruct x as [[]| |] || destruct x; cbn [rbind] in H; try discriminate H | H : (if ?c then _ else _) = Ok _ |- _ => destruct c; try discriminate H end.
Qed.
