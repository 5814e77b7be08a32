(** Proofs about the RSN element. *)
From Verif Require Import Base BaseFacts Bits Layouts BitsFacts Enums Utf8 Elements SpecElements ElementsFacts
  ElementTypes SpecElementTypes ElementTypesFacts StepsFacts Suites Rsn SpecRsn.

(** ** Selectors *)
Lemma le_bytes_4 sel : exists a b c d, le_bytes 4 sel = [a; b; c; d] /\
  (a < 256)%N /\ (b < 256)%N /\ (c < 256)%N /\ (d < 256)%N.
Proof.
  pose proof (le_bytes_length 4 sel) as L. pose proof (le_bytes_wf 4 sel) as W.
  destruct (le_bytes 4 sel) as [|a [|b [|c [|d [|]]]]]; try discriminate L.
  exists a, b, c, d. inversion_clear W as [|? ? Wa W']. inversion_clear W' as [|? ? Wb W''].
  inversion_clear W'' as [|? ? Wc W3]. inversion_clear W3. auto.
Qed.
Lemma split_selector sel : exists oui t, split_cipher_suite_selector sel = (oui, t) /\
  le_bytes 4 sel = oui ++ [t] /\ length oui = 3 /\ wf_bytes oui /\ (t < 256)%N.
Proof.
  destruct (le_bytes_4 sel) as (a & b & c & d & E & ? & ? & ? & ?). unfold split_cipher_suite_selector.
  rewrite E. exists [a; b; c], d. repeat split; auto. repeat constructor; auto.
Qed.
Lemma merge_split sel oui t : (sel < 2 ^ 32)%N -> le_bytes 4 sel = oui ++ [t] -> merge_oui_and_suite_type oui t = sel.
Proof. intros H E. unfold merge_oui_and_suite_type. rewrite <- E. apply le_val_bytes_small. exact H. Qed.
Lemma enc_cipher_selector c : le_bytes 4 (cipher_selector c) = enc_cipher c.
Proof. destruct c; reflexivity. Qed.
Lemma enc_akm_selector c : le_bytes 4 (akm_selector c) = enc_akm c.
Proof. destruct c; reflexivity. Qed.
Lemma enc_cipher_number d t : cipher_number d = Some t -> enc_cipher d = ieee_suite t.
Proof. unfold enc_cipher. destruct d; intros E; try discriminate E; cbn in E; injection E as <-; reflexivity. Qed.
Lemma enc_akm_number d t : akm_number d = Some t -> enc_akm d = ieee_suite t.
Proof. unfold enc_akm. destruct d; intros E; try discriminate E; cbn in E; injection E as <-; reflexivity. Qed.

Lemma cipher_cases sel : (sel < 2 ^ 32)%N ->
  enc_cipher (cipher_from_selector sel) = le_bytes 4 sel /\ ok_cipher (cipher_from_selector sel)
  /\ cipher_selector (cipher_from_selector sel) = sel.
Proof.
  intros H. unfold cipher_from_selector. destruct (split_selector sel) as (oui & t & -> & E & L & W & Ht).
  pose proof (merge_split sel oui t H E) as M.
  destruct (list_eq_dec N.eq_dec oui IEEE_OUI) as [->|Nq].
  - assert (U : (forall d, cipher_number d <> Some t) -> ok_cipher (Cs_Unknown sel)).
    { intros U. split; [exact H|]. intros d Nd Ed. destruct (cipher_number d) as [n|] eqn:En; [|congruence].
      rewrite (enc_cipher_number d n En), E in Ed. injection Ed as ->. now apply (U d). }
    rewrite <- M in E, U |- *. clear H M sel L W.
    destruct t as [|p]; [repeat split; exact E|].
    do 4 (try (destruct p as [p|p|])); try (repeat split; exact E);
      (split; [reflexivity|split; [|reflexivity]]; apply U; intros d Ed; destruct d; discriminate Ed).
  - rewrite M. cbn [enc_cipher cipher_selector]. repeat split; auto.
    intros d Nd Ed. destruct (cipher_number d) as [n|] eqn:En; [|congruence].
    rewrite (enc_cipher_number d n En), E in Ed. apply Nq.
    destruct oui as [|a [|b [|c [|]]]]; try discriminate L. injection Ed as <- <- <- _. reflexivity.
Qed.
Lemma akm_cases sel : (sel < 2 ^ 32)%N ->
  enc_akm (akm_from_selector sel) = le_bytes 4 sel /\ ok_akm (akm_from_selector sel)
  /\ akm_selector (akm_from_selector sel) = sel.
Proof.
  intros H. unfold akm_from_selector. destruct (split_selector sel) as (oui & t & -> & E & L & W & Ht).
  pose proof (merge_split sel oui t H E) as M.
  destruct (list_eq_dec N.eq_dec oui IEEE_OUI) as [->|Nq].
  - assert (U : (forall d, akm_number d <> Some t) -> ok_akm (Ak_Unknown sel)).
    { intros U. split; [exact H|]. intros d Nd Ed. destruct (akm_number d) as [n|] eqn:En; [|congruence].
      rewrite (enc_akm_number d n En), E in Ed. injection Ed as ->. now apply (U d). }
    rewrite <- M in E, U |- *. clear H M sel L W.
    destruct t as [|p]; [repeat split; exact E|].
    do 5 (try (destruct p as [p|p|])); try (repeat split; exact E);
      (split; [reflexivity|split; [|reflexivity]]; apply U; intros d Ed; destruct d; discriminate Ed).
  - rewrite M. cbn [enc_akm akm_selector]. repeat split; auto.
    intros d Nd Ed. destruct (akm_number d) as [n|] eqn:En; [|congruence].
    rewrite (enc_akm_number d n En), E in Ed. apply Nq.
    destruct oui as [|a [|b [|c [|]]]]; try discriminate L. injection Ed as <- <- <- _. reflexivity.
Qed.
Lemma cipher_selector_bound c : ok_cipher c -> (cipher_selector c < 2 ^ 32)%N.
Proof. destruct c; cbn; intros H; try reflexivity. apply H. Qed.
Lemma akm_selector_bound c : ok_akm c -> (akm_selector c < 2 ^ 32)%N.
Proof. destruct c; cbn; intros H; try reflexivity. apply H. Qed.
Lemma cipher_from_to c : ok_cipher c -> cipher_from_selector (cipher_selector c) = c.
Proof.
  intros H. destruct c as [sel| | | | | | | | | | | | |]; try reflexivity. destruct H as [H N]. cbn [cipher_selector].
  destruct (cipher_cases sel H) as (E & O & S).
  destruct (cipher_from_selector sel) eqn:C; [cbn in S; congruence|..];
    (exfalso; rewrite <- C in E; apply (N (cipher_from_selector sel)); [rewrite C; discriminate|exact E]).
Qed.
Lemma akm_from_to c : ok_akm c -> akm_from_selector (akm_selector c) = c.
Proof.
  intros H. destruct c as [sel| | | | | | | | | | | | | | | | | | | | | | | |]; try reflexivity. destruct H as [H N]. cbn [akm_selector].
  destruct (akm_cases sel H) as (E & O & S).
  destruct (akm_from_selector sel) eqn:C; [cbn in S; congruence|..];
    (exfalso; rewrite <- C in E; apply (N (akm_from_selector sel)); [rewrite C; discriminate|exact E]).
Qed.
Lemma enc_cipher_len c : length (enc_cipher c) = 4.
Proof. rewrite <- enc_cipher_selector. apply le_bytes_length. Qed.
Lemma enc_akm_len c : length (enc_akm c) = 4.
Proof. rewrite <- enc_akm_selector. apply le_bytes_length. Qed.

(** ** Tables *)
Lemma ieee_type_spec sel : (sel < 2 ^ 32)%N ->
  match get_suite_type_if_oui_is_ieee sel with
  | Some t => le_bytes 4 sel = ieee_suite t
  | None => forall t, le_bytes 4 sel <> ieee_suite t
  end.
Proof.
  intros H. unfold get_suite_type_if_oui_is_ieee.
  change 0xffffff%N with (N.ones 24). rewrite N.land_ones, N.shiftr_div_pow2.
  change (2 ^ 32)%N with 4294967296%N in H. change (2 ^ 24)%N with 16777216%N.
  pose proof (N.div_mod sel 16777216 ltac:(lia)) as D.
  set (q := (sel / 16777216)%N) in *. set (r := (sel mod 16777216)%N) in *.
  assert (Hq : (q < 256)%N). { apply N.div_lt_upper_bound; lia. }
  assert (Hr : (r < 16777216)%N) by (apply N.mod_lt; lia). clearbody q r.
  destruct (N.eqb_spec r 0xac0f00) as [->|Nr].
  - rewrite (N.mod_small q 256) by exact Hq. subst sel.
    replace (16777216 * q + 11276032)%N with (le_val (ieee_suite q)) by (cbn [ieee_suite le_val]; lia).
    apply (le_bytes_val (ieee_suite q)). repeat constructor; auto.
  - intros t E. apply Nr. assert (E2 := f_equal le_val E).
    rewrite le_val_bytes_small in E2 by (cbn; lia). cbn [ieee_suite le_val] in E2. subst sel. lia.
Qed.
Lemma unknown_cipher_type sel : ok_cipher (Cs_Unknown sel) ->
  match get_suite_type_if_oui_is_ieee sel with Some t => forall d, cipher_number d <> Some t | None => True end.
Proof.
  intros [H N]. pose proof (ieee_type_spec sel H) as S.
  destruct (get_suite_type_if_oui_is_ieee sel) as [t|]; [|exact I].
  intros d E. apply (N d); [congruence|]. now rewrite (enc_cipher_number d t E).
Qed.
Lemma unknown_akm_type sel : ok_akm (Ak_Unknown sel) ->
  match get_suite_type_if_oui_is_ieee sel with Some t => forall d, akm_number d <> Some t | None => True end.
Proof.
  intros [H N]. pose proof (ieee_type_spec sel H) as S.
  destruct (get_suite_type_if_oui_is_ieee sel) as [t|]; [|exact I].
  intros d E. apply (N d); [congruence|]. now rewrite (enc_akm_number d t E).
Qed.
Lemma cipher_lengths c : ok_cipher c -> tk_len c = standard_tk_len c /\ mic_len c = standard_mic_len c.
Proof.
  destruct c as [sel| | | | | | | | | | | | |]; try (intros _; split; reflexivity).
  intros H. apply unknown_cipher_type in H. unfold tk_len, mic_len. cbn [cipher_selector standard_tk_len standard_mic_len].
  destruct (get_suite_type_if_oui_is_ieee sel) as [t|]; [|auto].
  destruct t as [|p]; [auto|].
  do 4 (try (destruct p as [p|p|])); try (split; reflexivity); exfalso;
    first [ now apply (H Cs_Wep40) | now apply (H Cs_Tkip) | now apply (H Cs_Ccmp128) | now apply (H Cs_Wep104)
    | now apply (H Cs_BipCmac128) | now apply (H Cs_Gcmp128) | now apply (H Cs_Gcmp256) | now apply (H Cs_Ccmp256)
    | now apply (H Cs_BIPGcmp128) | now apply (H Cs_BIPGcmp256) | now apply (H Cs_BIPCcmp256) ].
Qed.
Lemma akm_lengths a :
  (akm_128 a -> kck_len a = Some 16 /\ kek_len a = Some 16 /\ key_mic_len a = Some 16) /\
  (akm_192 a -> kck_len a = Some 24 /\ kek_len a = Some 32 /\ key_mic_len a = Some 24).
Proof.
  split; intros H; cbn in H; repeat (destruct H as [<-|H]; [vm_compute; auto|]); destruct H.
Qed.
Lemma akm_type_above t : (forall d, akm_number d <> Some t) -> (23 < t)%N.
Proof.
  intros H. destruct (N.lt_ge_cases 23 t) as [|L]; [auto|exfalso].
  assert (I : In t (map N.of_nat (seq 0 24))).
  { apply in_map_iff. exists (N.to_nat t). split; [lia|]. apply in_seq. lia. }
  cbn in I. repeat destruct I as [<-|I]; try (destruct I; fail);
    first [ now apply (H Ak_None) | now apply (H Ak_Wpa) | now apply (H Ak_Psk) | now apply (H Ak_FTOverIEEE8021X)
    | now apply (H Ak_FTUsingPsk) | now apply (H Ak_WpaSha256) | now apply (H Ak_PskSha256) | now apply (H Ak_Tdls)
    | now apply (H Ak_Sae) | now apply (H Ak_FTUsingSae) | now apply (H Ak_APPeerKey) | now apply (H Ak_WpaSha256SuiteB)
    | now apply (H Ak_WpaSha384SuiteB) | now apply (H Ak_FTOverIEEE8021XSha384) | now apply (H Ak_FilsSha256Aes256)
    | now apply (H Ak_FilsSha384Aes512) | now apply (H Ak_FTOverFilsSha256Aes256) | now apply (H Ak_FTOverFilsSha384Aes512)
    | now apply (H Ak_OpportunisticWirelessEncryption) | now apply (H Ak_FTUsingPskSha384) | now apply (H Ak_PskSha384)
    | now apply (H Ak_Pasn) | now apply (H Ak_SaeGroupDefend) | now apply (H Ak_FTUsingSaeGroupDefend) ].
Qed.
(** a suite without a name, or one which is not used for EAPOL, has no lengths *)
Lemma akm_no_lengths a : ok_akm a ->
  match akm_number a with Some t => t = 0%N \/ (17 < t)%N | None => True end ->
  kck_len a = None /\ kek_len a = None /\ key_mic_len a = None /\ kck2_len a = None /\ kek2_len a = None.
Proof.
  intros Hok Ht. destruct a as [sel| | | | | | | | | | | | | | | | | | | | | | | |];
    try (cbn in Ht; destruct Ht as [Ht|Ht]; discriminate Ht); try (vm_compute; auto; fail).
  apply unknown_akm_type in Hok. unfold kck_len, kek_len, key_mic_len, kck2_len, kek2_len, between. cbn [akm_selector].
  destruct (get_suite_type_if_oui_is_ieee sel) as [t|]; [|auto].
  apply akm_type_above in Hok.
  repeat match goal with |- context [(?a <=? ?b)%N] => destruct (N.leb_spec a b); try lia
    | |- context [(?a =? ?b)%N] => destruct (N.eqb_spec a b); try lia end; cbn; auto.
Qed.
Lemma akm_rows a : ok_akm a -> (kck_len a, kek_len a, key_mic_len a, kck2_len a, kek2_len a) = akm_row a.
Proof.
  intros H. destruct a; try (vm_compute; reflexivity).
  destruct (akm_no_lengths _ H I) as (-> & -> & -> & -> & ->). reflexivity.
Qed.

(** ** Management frame protection *)
Lemma mfp_compat_sound x y : of_is_compatible x y = true -> compatible x y.
Proof. destruct x, y; vm_compute; intros H; try discriminate H; auto. Qed.
Lemma mfp_compat_incomplete : exists x y, compatible x y /\ of_is_compatible x y = false.
Proof. exists Of_Capable, Of_Capable. vm_compute. auto. Qed.
Lemma mfp_compat_exact x y : of_is_compatible x y = true <->
  of_is_required x = of_is_capable y /\ of_is_capable x = of_is_required y.
Proof. destruct x, y; vm_compute; split; intros H; try discriminate H; try destruct H; auto; discriminate. Qed.
Lemma mfp_sym x y : of_is_compatible x y = of_is_compatible y x.
Proof. destruct x, y; reflexivity. Qed.
