(** The RSN element is read back; reading of arbitrary bytes. *)
From Verif Require Import Base BaseFacts Bits Layouts BitsFacts Enums Utf8 Elements SpecElements ElementsFacts
  ElementTypes SpecElementTypes ElementTypesFacts StepsFacts Suites Rsn SpecRsn RsnFacts RsnFacts2.

Section Facts.
Context {cfg : Cfg}.
Lemma At_nil from off q : At from off q -> At from off (q ++ []).
Proof. now rewrite app_nil_r. Qed.
Lemma enc_cipher_ne c : enc_cipher c <> [].
Proof. apply nonempty_length. rewrite enc_cipher_len. lia. Qed.
Lemma enc_list_ne {A} k (enc : A -> bytes) l : enc_list k enc l <> [].
Proof. apply nonempty_length. unfold enc_list. rewrite app_length, le_bytes_length. lia. Qed.
Lemma le2_ne v : le_bytes 2 v <> [].
Proof. apply nonempty_length. rewrite le_bytes_length. lia. Qed.
Lemma end_ok_app a b : b <> [] -> end_ok (a ++ b).
Proof. intros H. right. now destruct a. Qed.
Lemma app_ne (a b : bytes) : a <> [] -> a ++ b <> [].
Proof. now destruct a. Qed.
Lemma concat_ne {A} (enc : A -> bytes) l : (forall x, In x l -> enc x <> []) -> l <> [] -> concat (map enc l) <> [].
Proof. destruct l as [|x l]; [congruence|]. intros H _. cbn. apply app_ne, H. now left. Qed.

Local Ltac ver A := rewrite (gread_step (rd_le 2) _ 0 (le_bytes 2 1) 1%N _ A (rd_le_R 2 1 eq_refl)) by apply le2_ne;
  apply At_step in A; cbn [rbind N.eqb Pos.eqb negb].
Local Ltac cip A O := rewrite (gread_ok_step rd_cipher _ _ _ _ _ A (rd_cipher_R _ O)) by apply enc_cipher_ne;
  apply At_step in A; cbn [rbind].
Local Ltac lst A F :=
  let E := fresh in
  match type of A with At ?from ?off (enc_list ?k ?enc ?l ++ ?rest) =>
    destruct (rd_list_enc k enc l from off rest A F) as [E A']; [..|rewrite E; clear E; cbn [rbind]; clear A; rename A' into A] end.
Local Ltac lstend A := rewrite (rd_list_end _ _ A); cbn [rbind].
Local Ltac cipend A := rewrite (gread_ok_fail _ _ _ _ A) by (apply rd_cipher_short; cbn; lia); cbn [rbind].
Local Ltac fin A := unfold received; cbn [option_map v_group v_pairwise v_akm v_caps v_pmkids v_group_mgmt];
  rewrite ?map_id; do 2 f_equal; destruct A as [_ A]; cbn [length] in A; lia.

Lemma rd_rsn_written v : ok_view v -> gap_free v -> lists_fit v -> end_not_empty_list v -> caps_readable v ->
  ReadsAll rd_rsn (enc_rsn 4 v) (received v).
Proof.
  intros (Og & Op & Oa & Oc & Ok' & Om) G (Fp & Fa & Fk) EL CR. apply gap_free_eq in G.
  unfold ReadsAll. unfold rd_rsn, enc_rsn.
  assert (Lp : forall l, Forall (fun c => length (enc_cipher c) = 4 * 1) l) by (intros; apply Forall_forall; intros; apply enc_cipher_len).
  assert (La : forall l, Forall (fun c => length (enc_akm c) = 4 * 1) l) by (intros; apply Forall_forall; intros; apply enc_akm_len).
  assert (Lk : forall l, Forall ok_pmkid l -> Forall (fun p => length ((fun p : bytes => p) p) = 4 * 4) l).
  { intros l F. eapply Forall_impl; [|exact F]. intros ? [E _]. exact E. }
  destruct v as [[g|] [p|] [a|] [c|] [k|] [m|]]; cbn in G; try discriminate G; clear G;
    cbn [v_group v_pairwise v_akm v_caps v_pmkids v_group_mgmt opt_enc opt_ok] in *; rewrite ?app_nil_r;
    match goal with |- context [gread (rd_le 2) ?bs 0] => pose proof (At_start bs) as A end.
  - (* everything *)
    destruct CR as [CR|CR]; [|discriminate CR].
    ver A. cip A Og.
    lst A (Lp p); [eapply list_count_small; eauto|apply end_ok_app, app_ne, enc_list_ne|].
    lst A (La a); [eapply list_count_small; eauto|apply end_ok_app, app_ne, le2_ne|].
    unfold rd_ne. rewrite CR.
    rewrite (gread_ok_step (rd_le 2) _ _ _ _ _ A (rd_le_R 2 c Oc)) by apply le2_ne. apply At_step in A. cbn [rbind].
    lst A (Lk k Ok'); [apply (list_count_small 4 (fun p : bytes => p)); auto|apply end_ok_app, enc_cipher_ne|].
    apply At_nil in A. cip A Om. fin A.
  - destruct CR as [CR|CR]; [|discriminate CR].
    ver A. cip A Og.
    lst A (Lp p); [eapply list_count_small; eauto|apply end_ok_app, app_ne, enc_list_ne|].
    lst A (La a); [eapply list_count_small; eauto|apply end_ok_app, app_ne, le2_ne|].
    unfold rd_ne. rewrite CR.
    rewrite (gread_ok_step (rd_le 2) _ _ _ _ _ A (rd_le_R 2 c Oc)) by apply le2_ne. apply At_step in A. cbn [rbind].
    apply At_nil in A.
    lst A (Lk k Ok'); [apply (list_count_small 4 (fun p : bytes => p)); auto|..].
    { rewrite app_nil_r. destruct EL as [EL|EL]; [now left|]. right. destruct k as [|k0 k]; [destruct p, a; destruct EL|].
      apply concat_ne; [|discriminate]. intros y I Ey. rewrite Forall_forall in Ok'. destruct (Ok' y I) as [L _]. rewrite Ey in L. discriminate L. }
    cipend A. fin A.
  - destruct CR as [CR|CR]; [|discriminate CR].
    ver A. cip A Og.
    lst A (Lp p); [eapply list_count_small; eauto|apply end_ok_app, app_ne, enc_list_ne|].
    lst A (La a); [eapply list_count_small; eauto|apply end_ok_app, le2_ne|].
    unfold rd_ne. rewrite CR. apply At_nil in A.
    rewrite (gread_ok_step (rd_le 2) _ _ _ _ _ A (rd_le_R 2 c Oc)) by apply le2_ne. apply At_step in A. cbn [rbind].
    lstend A. fin A.
  - ver A. cip A Og.
    lst A (Lp p); [eapply list_count_small; eauto|apply end_ok_app, enc_list_ne|].
    apply At_nil in A.
    lst A (La a); [eapply list_count_small; eauto|..].
    { rewrite app_nil_r. destruct EL as [EL|EL]; [now left|]. right. destruct a as [|a0 a]; [destruct p; destruct EL|].
      apply concat_ne; [|discriminate]. intros y _ Ey. pose proof (enc_akm_len y) as L. rewrite Ey in L. discriminate L. }
    rewrite (gread_ok_fail _ _ _ _ A) by (unfold rd_ne; destruct native_le; eexists; reflexivity). cbn [rbind]. fin A.
  - ver A. cip A Og. apply At_nil in A.
    lst A (Lp p); [eapply list_count_small; eauto|..].
    { rewrite app_nil_r. destruct EL as [EL|EL]; [now left|]. right. destruct p as [|p0 p]; [destruct EL|].
      apply concat_ne; [|discriminate]. intros y _. apply enc_cipher_ne. }
    lstend A. fin A.
  - ver A. apply At_nil in A. cip A Og. lstend A. fin A.
  - apply At_nil in A. ver A. cipend A. fin A.
Qed.
Lemma received_shows v : shows (received v) v.
Proof.
  destruct v as [g [p|] [a|] c [k|] m]; unfold received, shows, list_shows;
    cbn [option_map v_group v_pairwise v_akm v_caps v_pmkids v_group_mgmt rsn_group rsn_pairwise rsn_akm rsn_caps rsn_pmkids rsn_group_mgmt];
    rewrite ?map_id; repeat split; reflexivity.
Qed.
(** ** Equality *)
Lemma rl_eqb_spec {A} (r : reader A) dec x y l m : rl_items r x = Ok l -> rl_items r y = Ok m ->
  (rl_eqb r dec x y = true <-> l = m).
Proof. intros E F. unfold rl_eqb. rewrite E, F. destruct (list_eq_dec dec l m); split; congruence. Qed.
Lemma opt_list_eqb {A} (r : reader A) dec enc (ok : A -> Prop) x y o q :
  (forall x l, Forall ok l -> list_shows enc (Some x) (Some l) -> rl_items r x = Ok l) ->
  opt_ok (Forall ok) o -> opt_ok (Forall ok) q -> list_shows enc x o -> list_shows enc y q ->
  (opt_eqb (rl_eqb r dec) x y = true <-> o = q).
Proof.
  intros I Oo Oq Sx Sy.
  destruct x as [x|].
  - apply (list_shows_some _ _ _ x eq_refl) in Sx as (l & -> & Sx).
    destruct y as [y|].
    + apply (list_shows_some _ _ _ y eq_refl) in Sy as (m & -> & Sy). cbn [opt_eqb].
      rewrite (rl_eqb_spec r dec x y l m) by auto. split; congruence.
    + apply list_shows_none in Sy. subst. cbn. split; discriminate.
  - apply list_shows_none in Sx. subst. destruct y as [y|].
    + apply (list_shows_some _ _ _ y eq_refl) in Sy as (m & -> & Sy). cbn. split; discriminate.
    + apply list_shows_none in Sy. subst. cbn. tauto.
Qed.
Lemma opt_eqb_spec {A} (eqb : A -> A -> bool) x y : (forall a b, eqb a b = true <-> a = b) -> (opt_eqb eqb x y = true <-> x = y).
Proof. intros H. destruct x, y; cbn; try rewrite H; split; congruence. Qed.
Lemma rsn_eqb_spec x y v w : shows x v -> shows y w -> ok_view v -> ok_view w -> (rsn_eqb x y = true <-> v = w).
Proof.
  intros (Sg & Sp & Sa & Sc & Sk & Sm) (Tg & Tp & Ta & Tc & Tk & Tm) (Og & Op & Oa & Oc & Ok' & Om) (Pg & Pp & Pa & Pc & Pk & Pm).
  unfold rsn_eqb. rewrite !andb_true_iff, Sg, Sc, Sm, Tg, Tc, Tm.
  assert (CE : forall a b : CipherSuite, (if cipher_eq_dec a b then true else false) = true <-> a = b)
    by (intros a b; destruct (cipher_eq_dec a b); split; congruence).
  rewrite !(opt_eqb_spec _ _ _ CE), (opt_eqb_spec _ _ _ N.eqb_eq).
  rewrite (opt_list_eqb rd_cipher _ enc_cipher ok_cipher _ _ _ _ cipher_items Op Pp Sp Tp).
  rewrite (opt_list_eqb rd_akm _ enc_akm ok_akm _ _ _ _ akm_items Oa Pa Sa Ta).
  rewrite (opt_list_eqb rd_pmkid _ (fun p => p) ok_pmkid _ _ _ _ pmkid_items Ok' Pk Sk Tk).
  destruct v, w; cbn. split; [intros [[[[[]]]]]; congruence|intros [= -> -> -> -> -> ->]; auto 10].
Qed.

(** ** Arbitrary bytes *)
Lemma cipher_take from off q : wf_bytes q -> At from off q ->
  (length q < 4 /\ gread_ok rd_cipher from off = Ok (None, off)) \/
  exists c q', ok_cipher c /\ q = enc_cipher c ++ q' /\ wf_bytes q' /\
    gread_ok rd_cipher from off = Ok (Some c, off + 4) /\ At from (off + 4) q'.
Proof.
  intros W A. destruct (le_lt_dec 4 (length q)) as [L|L].
  - right. destruct (split_le 4 q W L) as (sel & q' & B & -> & W' & _).
    destruct (cipher_cases sel B) as (E & O & _). exists (cipher_from_selector sel), q'.
    rewrite <- E in A |- *. pose proof (gread_ok_step rd_cipher _ _ _ _ _ A (rd_cipher_R _ O) (enc_cipher_ne _)) as G.
    apply At_step in A. rewrite enc_cipher_len in *. auto 6.
  - left. split; [exact L|]. apply (gread_ok_fail _ _ _ _ A). now apply rd_cipher_short.
Qed.
Lemma no_list_nil : no_list [].
Proof. exact I. Qed.
Lemma list_take from off q : wf_bytes q -> At from off q ->
  (no_list q /\ exists off', rd_list from off = Ok (None, off') /\ off <= off' <= off + 2 /\ off' <= length from) \/
  exists bs q', q = le_bytes 2 (N.of_nat (length bs / 4)) ++ bs ++ q' /\ wf_bytes bs /\ wf_bytes q' /\
    rd_list from off = Ok (Some bs, off + 2 + length bs) /\ At from (off + 2 + length bs) q'.
Proof.
  intros W A. destruct (le_lt_dec 2 (length q)) as [L|L].
  - destruct (split_le 2 q W L) as (n & q' & B & -> & W' & _).
    assert (NV : forall a b, le_bytes 2 n = [a; b] -> n = (a + 256 * b)%N).
    { intros a b E. rewrite <- (le_val_bytes_small 2 n B), E. cbn [le_val]. lia. }
    destruct (le_bytes 2 n) as [|a [|b [|]]] eqn:E; try (pose proof (le_bytes_length 2 n) as X; rewrite E in X; discriminate X).
    specialize (NV a b eq_refl).
    assert (RN : gread_ok (rd_le 2) from off = Ok (Some n, off + 2) /\ At from (off + 2) q').
    { rewrite <- E in A. rewrite (gread_ok_step (rd_le 2) _ _ _ _ _ A (rd_le_R 2 n B)) by apply le2_ne.
      apply At_step in A. rewrite le_bytes_length in *. auto. }
    destruct RN as [RN A']. unfold rd_list. rewrite RN. cbn [rbind].
    destruct (le_lt_dec (N.to_nat (n * 4)) (length q')) as [K|K].
    + destruct (split_bytes (N.to_nat (n * 4)) q' W' K) as (bs & r & Lb & Wb & -> & Wr & _).
      destruct (end_bad (off + 2) (length from)) eqn:EB.
      * left. destruct A' as [E' L']. rewrite app_length in L'. unfold end_bad in EB.
        destruct strict_end eqn:SE; [apply Nat.leb_le in EB|apply Nat.ltb_lt in EB; lia].
        assert (bs = []) by (apply length0; lia). assert (r = []) by (apply length0; lia). subst bs r.
        cbn [length] in Lb. assert (n = 0%N) by lia. cbn [no_list app]. split.
        { right. assert (a = 0 /\ b = 0)%N by lia. intuition. }
        exists (off + 2). unfold gread_ok, gread, end_bad. rewrite SE.
        destruct (Nat.leb_spec (length from) (off + 2)); [|lia]. split; [reflexivity|]. cbn in L'. lia.
      * right. exists bs, r.
        assert (Q : length bs / 4 = N.to_nat n). { rewrite Lb. replace (N.to_nat (n * 4)) with (N.to_nat n * 4) by lia. apply Nat.div_mul. lia. }
        rewrite Q, N2Nat.id, E. repeat split; auto.
        -- unfold gread_ok, gread. rewrite EB. destruct A' as [-> _]. rewrite (rd_bytes_R bs _ (eq_sym Lb)). reflexivity.
        -- apply At_step in A'. apply A'.
        -- apply At_step in A'. apply A'.
    + left. split; [cbn [no_list app]; left; rewrite NV in K; lia|]. exists (off + 2). rewrite (gread_ok_fail _ _ _ _ A').
      * split; [reflexivity|]. destruct A' as [_ L']. lia.
      * unfold rd_bytes. destruct (Nat.ltb_spec (length q') (N.to_nat (n * 4))); [eauto|lia].
  - left. split; [destruct q as [|? [|]]; cbn in *; auto; lia|]. exists off.
    unfold rd_list. rewrite (gread_ok_fail _ _ _ _ A).
    + cbn. split; [reflexivity|]. destruct A as [_ L']. lia.
    + unfold rd_le. destruct (Nat.ltb_spec (length q) 2); [eauto|lia].
Qed.
Lemma caps_take from off q : wf_bytes q -> At from off q ->
  (length q < 2 /\ gread_ok (rd_ne 2) from off = Ok (None, off)) \/
  exists c q', (c < 65536)%N /\ q = (if native_le then le_bytes 2 c else be_bytes 2 c) ++ q' /\ wf_bytes q' /\
    gread_ok (rd_ne 2) from off = Ok (Some c, off + 2) /\ At from (off + 2) q'.
Proof.
  intros W A. destruct (le_lt_dec 2 (length q)) as [L|L].
  - right. destruct (split_ne 2 q W L) as (c & q' & B & -> & W' & _). exists c, q'.
    rewrite (gread_ok_step (rd_ne 2) _ _ _ _ _ A (rd_ne_R 2 c B)) by (apply ne_bytes_ne; discriminate).
    apply At_step in A. rewrite ne_bytes_length in *. repeat split; auto; apply A.
  - left. split; [exact L|]. apply (gread_ok_fail _ _ _ _ A). unfold rd_ne, rd_le, rd_be.
    destruct native_le; destruct (Nat.ltb_spec (length q) 2); try lia; eauto.
Qed.
(** what is known about a value that was read *)
Definition ok_read (y : Rsn) : Prop :=
  opt_ok ok_cipher (rsn_group y) /\ opt_ok (fun c => c < 65536)%N (rsn_caps y) /\ opt_ok ok_cipher (rsn_group_mgmt y).
Local Ltac fin_any :=
  rewrite ?app_nil_r; split; [now rewrite <- ?app_assoc|]; split; [auto|]; split; [auto|]; split;
  [ rewrite ?app_length, ?enc_cipher_len, ?le_bytes_length; destruct native_le; rewrite ?le_bytes_length, ?be_bytes_length; lia
  | first [lia | match goal with A : At _ ?o _, LF : (forall off r, At _ off r -> off <= length _) |- ?o <= _ => exact (LF _ _ A) end] ].
Lemma rd_rsn_any bs : wf_bytes bs ->
  (exists e, rd_rsn bs = Err e) /\ (forall rest, bs <> [1; 0]%N ++ rest) \/
  exists y n tail, rd_rsn bs = Ok (y, n) /\ bs = raw_enc y ++ tail /\ stops_at y tail /\ ok_read y /\
    length (raw_enc y) <= n <= length (raw_enc y) + 2 /\ n <= length bs.
Proof.
  intros W. pose proof (At_start bs) as A. unfold rd_rsn.
  destruct (le_lt_dec 2 (length bs)) as [L|L].
  2:{ left. split.
    - unfold gread. destruct (end_bad _ _); cbn [rbind]; [eauto|]. cbn [skipn]. unfold rd_le.
      destruct (Nat.ltb_spec (length bs) 2); [|lia]. cbn. eauto.
    - intros rest ->. cbn in L. lia. }
  destruct (split_le 2 bs W L) as (ver & q & B & -> & Wq & _).
  rewrite (gread_step (rd_le 2) _ 0 _ _ _ A (rd_le_R 2 ver B)) by apply le2_ne. apply At_step in A. cbn [rbind].
  destruct (N.eqb_spec ver 1) as [->|Nv]; cbn [negb].
  2:{ left. split; [eauto|]. intros rest E. apply Nv. apply (le_bytes_inj 2 ver 1 B eq_refl).
    apply (f_equal (firstn 2)) in E. rewrite firstn_app_exact in E by now rewrite le_bytes_length. exact E. }
  rewrite le_bytes_length in A |- *. cbn [Nat.add] in A |- *. right.
  set (from := le_bytes 2 1 ++ q) in *.
  assert (LF : forall off r, At from off r -> off <= length from) by (intros off r [_ X]; lia).
  unfold raw_enc, ok_read.
  destruct (cipher_take from 2 q Wq A) as [[S ->]|(g & q1 & Og & -> & W1 & -> & A1)]; cbn [rbind].
  { exists rsn_new, 2, q. cbn. repeat split; auto; try lia; exact (LF _ _ A). }
  destruct (list_take from _ q1 W1 A1) as [(S & off' & -> & Lo & Lo')|(pb & q2 & -> & Wp & W2 & -> & A2)]; cbn [rbind].
  { eexists _, _, q1. split; [reflexivity|]. cbn [rsn_group rsn_pairwise rsn_akm rsn_caps rsn_pmkids rsn_group_mgmt opt_enc raw_list opt_ok stops_at].
    fin_any. }
  destruct (list_take from _ q2 W2 A2) as [(S & off' & -> & Lo & Lo')|(ab & q3 & -> & Wa & W3 & -> & A3)]; cbn [rbind].
  { eexists _, _, q2. split; [reflexivity|]. cbn [rsn_group rsn_pairwise rsn_akm rsn_caps rsn_pmkids rsn_group_mgmt opt_enc raw_list opt_ok stops_at].
    fin_any. }
  destruct (caps_take from _ q3 W3 A3) as [(S & ->)|(c & q4 & Oc & -> & W4 & -> & A4)]; cbn [rbind].
  { eexists _, _, q3. split; [reflexivity|]. cbn [rsn_group rsn_pairwise rsn_akm rsn_caps rsn_pmkids rsn_group_mgmt opt_enc raw_list opt_ok stops_at].
    fin_any. }
  assert (Lc : length (if native_le then le_bytes 2 c else be_bytes 2 c) = 2) by apply ne_bytes_length.
  destruct (list_take from _ q4 W4 A4) as [(S & off' & -> & Lo & Lo')|(kb & q5 & -> & Wk & W5 & -> & A5)]; cbn [rbind].
  { eexists _, _, q4. split; [reflexivity|]. cbn [rsn_group rsn_pairwise rsn_akm rsn_caps rsn_pmkids rsn_group_mgmt opt_enc raw_list opt_ok stops_at].
    fin_any. }
  destruct (cipher_take from _ q5 W5 A5) as [[S ->]|(m & q6 & Om & -> & W6 & -> & A6)]; cbn [rbind].
  { eexists _, _, q5. split; [reflexivity|]. cbn [rsn_group rsn_pairwise rsn_akm rsn_caps rsn_pmkids rsn_group_mgmt opt_enc raw_list opt_ok stops_at].
    fin_any. }
  eexists _, _, q6. split; [reflexivity|]. cbn [rsn_group rsn_pairwise rsn_akm rsn_caps rsn_pmkids rsn_group_mgmt opt_enc raw_list opt_ok stops_at].
  fin_any.
Qed.
Lemma rd_list_NP from off : rd_list from off <> Panic.
Proof.
  unfold rd_list, gread_ok. pose proof (gread_no_panic (rd_le 2) from off (rd_le_NP 2)) as H.
  destruct (gread (rd_le 2) from off) as [[n o]| |]; cbn [rbind]; try congruence.
  pose proof (gread_no_panic (rd_bytes (N.to_nat (n * 4))) from o (rd_bytes_NP _)).
  destruct (gread (rd_bytes _) from o) as [[? ?]| |]; congruence.
Qed.
Lemma gread_ok_NP {A} (r : reader A) from off : NoPanic r -> gread_ok r from off <> Panic.
Proof. intros H. unfold gread_ok. pose proof (gread_no_panic r from off H). destruct (gread r from off) as [[? ?]| |]; congruence. Qed.
Lemma rd_rsn_NP : NoPanic rd_rsn.
Proof.
  intros from. unfold rd_rsn. np. destruct (negb _); [discriminate|].
  repeat (match goal with
  | |- context [gread_ok ?r from ?o] => let X := fresh in assert (X : gread_ok r from o <> Panic) by (apply gread_ok_NP; first [apply rd_cipher_NP|apply rd_ne_NP]);
      destruct (gread_ok r from o) as [[[?|] ?]| |]; cbn [rbind]; try congruence
  | |- context [rd_list from ?o] => let X := fresh in pose proof (rd_list_NP from o) as X;
      destruct (rd_list from o) as [[[?|] ?]| |]; cbn [rbind]; try congruence
  end).
Qed.
(** What was read is written back as the same bytes. *)
Lemma raw_list_S {A} (w : A -> writer) b : (N.of_nat (length b) < 65536)%N ->
  Steps (wr_list w (Iter b)) (raw_list (Some (@Iter A b))).
Proof.
  intros Lb.
  pose proof (Steps_backpatch 2 (gwrite (wr_rlist w (Iter b))) (fun n => le_bytes 2 (N.of_nat n mod 65536 / 4)) b) as B.
  cbv beta in B. cbn [raw_list].
  replace (N.of_nat (length b / 4)) with (N.of_nat (length b) mod 65536 / 4)%N.
  2:{ rewrite (N.mod_small _ 65536) by exact Lb. rewrite Nat2N.inj_div. reflexivity. }
  eapply Steps_ext; [|apply B].
  - intros buf off. unfold wr_list, backpatch.
    destruct (gwrite (wr_rlist w (Iter b)) buf (off + 2)) as [[b' o]| |] eqn:G; cbn [rbind]; try reflexivity.
    assert (off + 2 <= o).
    { unfold gwrite in G. destruct (end_bad _ _); [discriminate|]. destruct (wr_rlist _ _ _) as [[? ?]| |]; try discriminate.
      injection G as _ <-. lia. }
    replace (o - (o - (off + 2)) - 2) with off by lia. reflexivity.
  - apply Steps_gwrite. apply pwrite0_W, wr_bytes_W.
  - discriminate.
  - apply le_bytes_length.
  - intros. now apply gwrite_far.
Qed.
Lemma rsn_reread y tail : native_le = true -> (N.of_nat (length (raw_enc y)) < 65536)%N ->
  stops_at y tail -> Writes (wr_rsn y) (raw_enc y).
Proof.
  intros NL LB S. apply (Steps_W (wr_rsn_step y)). unfold wr_rsn_step, raw_enc in *. rewrite NL in *.
  destruct y as [[g|] [[?|p]|] [[?|a]|] [c|] [[?|k]|] [m|]]; cbn [stops_at] in S; try (exfalso; exact S); clear S;
    cbn [rsn_group rsn_pairwise rsn_akm rsn_caps rsn_pmkids rsn_group_mgmt opt_enc] in *;
    rewrite !app_length in LB;
    (apply Steps_seq; [apply Steps_gwrite, wr_bytes_W|]); try (apply Steps_ret);
    repeat (first [ apply Steps_ret | apply Steps_seq | apply Steps_gwrite, wr_cipher_W | apply Steps_gwrite, wr_bytes_W
      | apply raw_list_S; unfold raw_list in LB; rewrite ?app_length in LB; lia ]).
Qed.
End Facts.
