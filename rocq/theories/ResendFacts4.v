From Verif Require Import Base BaseFacts SpecBase Elements SpecElements ElementsFacts ElementTypes SpecElementTypes ElementTypesFacts StepsFacts
  Suites Rsn SpecRsn RsnFacts RsnFacts2 RsnFacts3 RsnFacts4 SpecResend SpecResend2 SpecUtf8 ElementTypesFacts3 ResendFacts2.

Lemma swap16_bytes c : (c < 65536)%N -> be_bytes 2 (swap16 c) = le_bytes 2 c.
Proof.
  intros H. unfold swap16. cbn. assert (c / 256 < 256)%N by (apply N.div_lt_upper_bound; lia).
  assert (c mod 256 < 256)%N by (apply N.mod_lt; lia).
  assert (E1 : ((c mod 256 * 256 + c / 256) / 256 = c mod 256)%N) by (rewrite N.add_comm, N.div_add, N.div_small by lia; lia).
  assert (E2 : ((c mod 256 * 256 + c / 256) mod 256 = c / 256)%N) by (rewrite N.add_comm, N.mod_add, N.mod_small by lia; lia).
  rewrite E1, E2, N.mod_mod by lia. rewrite (N.mod_small (c / 256)) by lia. reflexivity.
Qed.
Lemma swap16_small c : (c < 65536)%N -> (swap16 c < 65536)%N.
Proof.
  intros H. unfold swap16. assert (c / 256 < 256)%N by (apply N.div_lt_upper_bound; lia).
  assert (c mod 256 < 256)%N by (apply N.mod_lt; lia). lia.
Qed.

Section Facts.
Context {cfg : Cfg}.
Definition caps_le (y : Rsn) : bytes :=
  le_bytes 2 1 ++ opt_enc enc_cipher (rsn_group y) ++ raw_list (rsn_pairwise y) ++ raw_list (rsn_akm y)
  ++ opt_enc (le_bytes 2) (rsn_caps y) ++ raw_list (rsn_pmkids y) ++ opt_enc enc_cipher (rsn_group_mgmt y).
Lemma swapped_enc y : opt_ok (fun c => c < 65536)%N (rsn_caps y) -> raw_enc (swapped_caps y) = caps_le y.
Proof.
  intros O. unfold raw_enc, swapped_caps, caps_le. destruct native_le; [reflexivity|].
  cbn [rsn_group rsn_pairwise rsn_akm rsn_caps rsn_pmkids rsn_group_mgmt]. destruct (rsn_caps y) as [c|]; [|reflexivity].
  cbn [option_map opt_enc]. now rewrite swap16_bytes.
Qed.
Lemma caps_le_written y tail : (N.of_nat (length (caps_le y)) < 65536)%N -> stops_at y tail -> Writes (wr_rsn y) (caps_le y).
Proof.
  intros LB S. apply (Steps_W (wr_rsn_step y)). unfold wr_rsn_step, caps_le in *.
  destruct y as [[g|] [[?|p]|] [[?|a]|] [c|] [[?|k]|] [m|]]; cbn [stops_at] in S; try (exfalso; exact S); clear S;
    cbn [rsn_group rsn_pairwise rsn_akm rsn_caps rsn_pmkids rsn_group_mgmt opt_enc] in *;
    rewrite !app_length in LB;
    (apply Steps_seq; [apply Steps_gwrite, wr_bytes_W|]); try (apply Steps_ret);
    repeat (first [ apply Steps_ret | apply Steps_seq | apply Steps_gwrite, wr_cipher_W | apply Steps_gwrite, wr_bytes_W
      | apply raw_list_S; unfold raw_list in LB; rewrite ?app_length in LB; lia ]).
Qed.
(** a list in front of [rest] *)
Lemma raw_list_read {A} from off b rest k : At from off (raw_list (Some (@Iter A b)) ++ rest) -> length b = 4 * k -> (N.of_nat (length b) < 65536)%N ->
  b ++ rest <> [] -> rd_list from off = Ok (Some b, off + 2 + length b) /\ At from (off + 2 + length b) rest.
Proof.
  intros H L B Ne. cbn [raw_list] in H. rewrite <- app_assoc in H. apply (rd_list_step from off (length b / 4)); [exact H| | |right; exact Ne].
  - rewrite L. replace (4 * k) with (k * 4) by lia. rewrite Nat.div_mul by lia. lia.
  - rewrite L. replace (4 * k) with (k * 4) by lia. rewrite Nat.div_mul by lia. lia.
Qed.
(** a list at the end *)
Lemma raw_list_last {A} from off b k : At from off (raw_list (Some (@Iter A b))) -> length b = 4 * k -> (N.of_nat (length b) < 65536)%N ->
  rd_list from off = Ok (if strict_end then match b with [] => None | _ => Some b end else Some b, off + 2 + length b) /\ At from (off + 2 + length b) [].
Proof.
  intros H L B. destruct b as [|x b].
  - split; [|change (At from off (le_bytes 2 0)) in H; apply At_nil, At_step in H; cbn in *; now rewrite Nat.add_0_r].
    change (At from off (le_bytes 2 0)) in H. apply At_nil in H. unfold rd_list.
    rewrite (gread_ok_step (rd_le 2) _ _ _ _ _ H (rd_le_R 2 0 eq_refl)) by apply le2_ne. apply At_step in H. rewrite le_bytes_length in *. cbn [rbind].
    destruct H as [E F]. cbn in F. unfold gread_ok, gread, end_bad. cbn [length]. rewrite !Nat.add_0_r.
    destruct strict_end.
    + destruct (Nat.leb_spec (length from) (off + 2)); [reflexivity|lia].
    + destruct (Nat.ltb_spec (length from) (off + 2)); [lia|]. rewrite E. cbn. now rewrite Nat.add_0_r.
  - apply At_nil in H. destruct (raw_list_read from off (x :: b) [] k H L B ltac:(discriminate)) as [E A1]. rewrite E. split; [now destruct strict_end|exact A1].
Qed.
Lemma list_ne {A} b (rest : bytes) : raw_list (Some (@Iter A b)) ++ rest <> [].
Proof. cbn. discriminate. Qed.
Lemma app_ne2 (a b : bytes) : b <> [] -> a ++ b <> [].
Proof. destruct a, b; cbn; congruence. Qed.
Lemma caps_ne c (rest : bytes) : (if native_le then le_bytes 2 c else be_bytes 2 c) ++ rest <> [].
Proof. destruct native_le; cbn; discriminate. Qed.
Lemma list_ne2 {A} b : raw_list (Some (@Iter A b)) <> [].
Proof. cbn. discriminate. Qed.
Lemma caps_ne2 c : (if native_le then le_bytes 2 c else be_bytes 2 c) <> [].
Proof. destruct native_le; cbn; discriminate. Qed.
Lemma cipher_at from off c rest : At from off (enc_cipher c ++ rest) -> ok_cipher c -> gread_ok rd_cipher from off = Ok (Some c, off + 4) /\ At from (off + 4) rest.
Proof.
  intros A O. rewrite (gread_ok_step rd_cipher _ _ _ _ _ A (rd_cipher_R _ O)) by apply enc_cipher_ne. apply At_step in A. rewrite enc_cipher_len in A. rewrite enc_cipher_len. auto.
Qed.
Lemma caps_at from off c rest : At from off ((if native_le then le_bytes 2 c else be_bytes 2 c) ++ rest) -> (c < 65536)%N ->
  gread_ok (rd_ne 2) from off = Ok (Some c, off + 2) /\ At from (off + 2) rest.
Proof.
  intros A O. rewrite (gread_ok_step (rd_ne 2) _ _ _ _ _ A (rd_ne_R 2 c O)) by (apply ne_bytes_ne; discriminate).
  apply At_step in A. revert A. destruct native_le; cbn; auto.
Qed.
Lemma version_at from rest : At from 0 (le_bytes 2 1 ++ rest) -> gread (rd_le 2) from 0 = Ok (1%N, 2) /\ At from 2 rest.
Proof. intros A. rewrite (gread_step (rd_le 2) _ 0 (le_bytes 2 1) 1%N _ A (rd_le_R 2 1 eq_refl)) by apply le2_ne. apply At_step in A. split; [reflexivity|exact A]. Qed.
Lemma At_end from off : At from off [] -> length from = off.
Proof. intros [_ L]. cbn in L. lia. Qed.
Lemma cipher_end from off : At from off [] -> gread_ok rd_cipher from off = Ok (None, off).
Proof. intros A. apply (gread_ok_fail _ _ _ _ A), rd_cipher_short. cbn. lia. Qed.
Lemma caps_end from off : At from off [] -> gread_ok (rd_ne 2) from off = Ok (None, off).
Proof. intros A. apply (gread_ok_fail _ _ _ _ A). unfold rd_ne. destruct native_le; eexists; reflexivity. Qed.

Local Ltac go A E := let A' := fresh "A" in let Q := fresh in destruct E as [Q A']; rewrite Q; clear Q; cbn [rbind N.eqb Pos.eqb negb]; clear A; rename A' into A.
Local Ltac done A := rewrite (At_end _ _ A); unfold without_empty_end.
Lemma rsn_again y tail : stops_at y tail -> ok_read y -> fours (rsn_pairwise y) -> fours (rsn_akm y) -> fours (rsn_pmkids y) ->
  (N.of_nat (length (raw_enc y)) < 65536)%N -> rd_rsn (raw_enc y) = Ok (without_empty_end y, length (raw_enc y)).
Proof.
  intros S (Og & Oc & Om) Fp Fa Fk LB.
  pose proof (At_start (raw_enc y)) as A. unfold rd_rsn. remember (raw_enc y) as from eqn:Ef.
  assert (A0 : At from 0 (raw_enc y)) by now rewrite <- Ef. clear A. rename A0 into A. rewrite Ef in LB. clear Ef. unfold raw_enc in *.
  destruct y as [[g|] [[?|p]|] [[?|a]|] [c|] [[?|k]|] [m|]]; cbn [stops_at] in S; try (exfalso; exact S); clear S;
    cbn [rsn_group rsn_pairwise rsn_akm rsn_caps rsn_pmkids rsn_group_mgmt opt_enc opt_ok fours] in *;
    repeat match goal with H : exists _, _ |- _ => let k := fresh "k" in destruct H as [k H] end;
    rewrite ?app_length in LB; cbn [raw_list] in LB; rewrite ?app_length in LB;
    change (@raw_list CipherSuite None) with (@nil N) in A; change (@raw_list AkmType None) with (@nil N) in A; change (@raw_list bytes None) with (@nil N) in A;
    rewrite ?app_nil_l, ?app_nil_r in A.
  - go A (version_at _ _ A). go A (cipher_at _ _ _ _ A Og).
    go A (raw_list_read _ _ _ _ _ A Fp ltac:(lia) (app_ne2 _ _ (list_ne _ _))).
    go A (raw_list_read _ _ _ _ _ A Fa ltac:(lia) (app_ne2 _ _ (caps_ne _ _))).
    go A (caps_at _ _ _ _ A Oc).
    go A (raw_list_read _ _ _ _ _ A Fk ltac:(lia) (app_ne2 _ _ (enc_cipher_ne _))).
    apply At_nil in A. go A (cipher_at _ _ _ _ A Om).
    done A. destruct strict_end; [destruct p, a, k|]; reflexivity.
  - go A (version_at _ _ A). go A (cipher_at _ _ _ _ A Og).
    go A (raw_list_read _ _ _ _ _ A Fp ltac:(lia) (app_ne2 _ _ (list_ne _ _))).
    go A (raw_list_read _ _ _ _ _ A Fa ltac:(lia) (app_ne2 _ _ (caps_ne _ _))).
    go A (caps_at _ _ _ _ A Oc).
    go A (raw_list_last _ _ _ _ A Fk ltac:(lia)).
    done A. pose proof (cipher_end _ _ A) as C. destruct strict_end; [destruct k|]; cbn [rbind]; rewrite ?C; destruct p, a; reflexivity.
  - go A (version_at _ _ A). go A (cipher_at _ _ _ _ A Og).
    go A (raw_list_read _ _ _ _ _ A Fp ltac:(lia) (app_ne2 _ _ (list_ne _ _))).
    go A (raw_list_read _ _ _ _ _ A Fa ltac:(lia) (app_ne2 _ _ (caps_ne2 _))).
    apply At_nil in A. go A (caps_at _ _ _ _ A Oc).
    rewrite (rd_list_end _ _ A). cbn [rbind]. done A. destruct strict_end; [destruct p, a|]; reflexivity.
  - go A (version_at _ _ A). go A (cipher_at _ _ _ _ A Og).
    go A (raw_list_read _ _ _ _ _ A Fp ltac:(lia) (app_ne2 _ _ (list_ne2 _))).
    go A (raw_list_last _ _ _ _ A Fa ltac:(lia)).
    done A. pose proof (caps_end _ _ A) as C. destruct strict_end; [destruct a|]; cbn [rbind]; rewrite ?C; destruct p; reflexivity.
  - go A (version_at _ _ A). go A (cipher_at _ _ _ _ A Og).
    go A (raw_list_last _ _ _ _ A Fp ltac:(lia)).
    done A. pose proof (rd_list_end _ _ A) as C. destruct strict_end; [destruct p|]; cbn [rbind]; rewrite ?C; reflexivity.
  - go A (version_at _ _ A). apply At_nil in A. go A (cipher_at _ _ _ _ A Og). rewrite (rd_list_end _ _ A). cbn [rbind]. done A. now destruct strict_end.
  - apply At_nil in A. go A (version_at _ _ A). rewrite (cipher_end _ _ A). cbn [rbind]. done A. now destruct strict_end.
Qed.
Lemma rsn_again_any bs y n : wf_bytes bs -> (N.of_nat (length bs) < 65536)%N -> rd_rsn bs = Ok (y, n) ->
  let z := swapped_caps y in
  Writes (wr_rsn y) (raw_enc z) /\ rd_rsn (raw_enc z) = Ok (without_empty_end z, length (raw_enc z)).
Proof.
  intros W LB E z. destruct (rd_rsn_any bs W) as [[[e X] _]|(y' & n' & t & E' & Eb & S & O & _)]; [congruence|].
  rewrite E in E'. injection E' as <- <-. destruct (rsn_fours bs y n E) as (Fp & Fa & Fk).
  assert (Lz : length (raw_enc z) = length (raw_enc y)).
  { unfold z, raw_enc, swapped_caps. destruct native_le; [reflexivity|]. cbn [rsn_group rsn_pairwise rsn_akm rsn_caps rsn_pmkids rsn_group_mgmt].
    rewrite !app_length. destruct (rsn_caps y); reflexivity. }
  assert (LB' : (N.of_nat (length (raw_enc z)) < 65536)%N) by (rewrite Lz; rewrite Eb, app_length in LB; lia).
  assert (Oc : opt_ok (fun c => c < 65536)%N (rsn_caps y)) by apply O.
  split.
  - unfold z in *. rewrite swapped_enc in LB' by exact Oc. rewrite swapped_enc by exact Oc. eapply caps_le_written; [exact LB'|exact S].
  - apply (rsn_again z t); try exact LB'; unfold z, swapped_caps; destruct native_le; try assumption.
    + destruct y as [[g|] [[?|p]|] [[?|a]|] [c|] [[?|k]|] [m|]]; cbn in S |- *; assumption.
    + destruct O as (Og & _ & Om). split; [exact Og|]. split; [|exact Om]. cbn [rsn_caps]. destruct (rsn_caps y) as [c|]; [|exact I]. now apply swap16_small.
Qed.
(** ** OWE transition mode *)
Lemma owe_again bs x n : wf_bytes bs -> rd_owe bs = Ok (x, n) ->
  Writes (wr_owe x) (kept_owe bs) /\ et_measure OWETransitionModeElement x = length (kept_owe bs) /\
  rd_owe (kept_owe bs) =
    if strict_end && match x with mkOWE _ [] None => true | _ => false end then Err BadOffset else Ok (x, length (kept_owe bs)).
Proof.
  intros W E. destruct (owe_parse bs x n W E) as (tail & -> & O & T). rewrite (kept_owe_enc x tail O T). clear E W T.
  split; [now apply wr_owe_W|].
  assert (K : (strict_end = false \/ owe_ssid x <> [] \/ owe_band x <> None) ->
    et_measure OWETransitionModeElement x = length (enc_owe x) /\ rd_owe (enc_owe x) = Ok (x, length (enc_owe x))).
  { intros K. destruct (owe_round_trip x (conj O K)) as (body & Ww & M & Wf & R).
    assert (Eb : body = enc_owe x) by (eapply Writes_unique; [exact Ww|now apply wr_owe_W]). subst body. split; [exact M|exact R]. }
  destruct x as [bssid ssid band]. cbn [owe_ssid owe_band] in K.
  destruct strict_end eqn:SE; cbn [andb]; [|apply K; now left].
  destruct ssid as [|s ssid]; [destruct band as [bd|]|]; [apply K; right; right; discriminate| |destruct band; apply K; right; left; discriminate].
  clear K. destruct O as ((L & _) & _). cbn [owe_bssid] in L. unfold enc_owe. cbn [owe_bssid owe_ssid owe_band length app et_measure OWETransitionModeElement].
  split; [rewrite app_length; cbn; lia|].
  destruct bssid as [|b0 [|b1 [|b2 [|b3 [|b4 [|b5 [|]]]]]]]; try discriminate L. cbn. unfold rd_owe, gread, end_bad. rewrite SE. reflexivity.
Qed.
End Facts.
