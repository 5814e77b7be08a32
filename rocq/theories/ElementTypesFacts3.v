(** Proofs about VHT MCS maps, OWE, key data and mesh peering elements. *)
From Verif Require Import Base BaseFacts Bits Layouts BitsFacts Enums EnumsFacts Utf8 SpecUtf8 Utf8Facts Elements SpecElements ElementsFacts ElementTypes SpecElementTypes CommonFacts ElementTypesFacts ElementTypesFacts2.

Section Facts.
Context {cfg : Cfg}.
Local Ltac lens := rewrite ?app_length, ?le_bytes_length, ?be_bytes_length, ?ne_bytes_length; cbn [length].
Local Ltac wf := repeat first [ assumption | apply le_bytes_wf | apply be_bytes_wf | apply ne_bytes_wf
  | apply wf_bytes_nil | apply wf_bytes_app; split | apply wf_bytes_cons; split ].

(** ** VHT MCS map from a list *)
Lemma vht_canonical_cases x : vht_canonical x -> x = Vm_ZeroToSeven \/ x = Vm_ZeroToEight \/ x = Vm_ZeroToNine \/ x = Vm_NotSupported.
Proof.
  intros [C B]. destruct x as [| | | |n]; auto. exfalso. cbn in B, C.
  destruct n as [|[[|[]|]|[|[]|]|]]; cbn in C; try discriminate; lia.
Qed.
Lemma vht_from_iter_ok l : length l <= 4 -> Forall vht_canonical l -> exists m,
  from_vht_mcs_iter l = Ok m /\ (m < 65536)%N /\
  forall i x, nth_error l i = Some x -> vht_mcs_support_for_nss m (N.of_nat (S i)) = Some x.
Proof.
  intros L F.
  assert (S : forall a, vht_canonical a -> In a [Vm_ZeroToSeven; Vm_ZeroToEight; Vm_ZeroToNine; Vm_NotSupported]).
  { intros a C. apply vht_canonical_cases in C. cbn. intuition. }
  unfold from_vht_mcs_iter. rewrite firstn_all2 by lia. cbn [vht_mcs_fold].
  assert (Hs : forall x k, (k < 8)%N -> shl_u8 x k = Ok (N.shiftl x k mod 256)%N).
  { intros x k Hk. unfold shl_u8. destruct (N.leb_spec 8 k); [lia|]. now rewrite andb_false_r, (N.mod_small k 8). }
  destruct l as [|a [|b [|c [|d [|]]]]]; try (cbn in L; lia); repeat match goal with H : Forall _ (_ :: _) |- _ => inversion H; clear H; subst end;
    repeat match goal with H : vht_canonical _ |- _ => apply S in H; cbn [In] in H end; cbn [vht_mcs_fold];
    rewrite ?Hs by reflexivity; cbn [rbind]; rewrite ?Hs by reflexivity; cbn [rbind]; rewrite ?Hs by reflexivity; cbn [rbind]; rewrite ?Hs by reflexivity; cbn [rbind];
    (eexists; split; [reflexivity|]); clear S Hs L;
    repeat match goal with H : _ \/ _ |- _ => destruct H as [<-|H] | H : False |- _ => destruct H end;
    (split; [vm_compute; reflexivity|]);
    intros i x; do 4 (destruct i as [|i]; cbn [nth_error]; [intros [= <-]; reflexivity|]); try discriminate; destruct i; discriminate.
Qed.
Lemma vht_fold_panic l : forall i acc, (4 <= i + N.of_nat (length l) - 1)%N -> l <> [] -> overflow_checks = true -> vht_mcs_fold i l acc = Panic.
Proof.
  induction l as [|x l IH]; intros i acc H N O; [congruence|]. cbn [vht_mcs_fold].
  unfold shl_u8 at 1. rewrite O. cbn [andb]. destruct (N.leb_spec 8 (i * 2)); [reflexivity|]. cbn [rbind].
  destruct l as [|y l]; [cbn [length] in H; lia|]. apply IH; auto; [|discriminate]. cbn [length] in *. lia.
Qed.
Lemma vht_from_iter_panic l : overflow_checks = true -> 5 <= length l -> from_vht_mcs_iter l = Panic.
Proof.
  intros O L. apply vht_fold_panic; auto; [rewrite firstn_length; lia|].
  destruct l; [cbn in L; lia|discriminate].
Qed.

(** ** OWE transition mode *)
Lemma rd_band_R a b : Reads rd_band ([a] ++ [b]) (a, b).
Proof.
  intros rest. unfold rd_band. pose proof (At_start (([a] ++ [b]) ++ rest)) as A. rewrite <- !app_assoc in *.
  rstep A. rstep A. reflexivity.
Qed.
Lemma rd_band_NP : NoPanic rd_band.
Proof. intros f. unfold rd_band. np. Qed.
Lemma rd_band_nil : exists e, rd_band [] = Err e.
Proof. unfold rd_band, gread. destruct (end_bad _ _); cbn; eauto. Qed.
Lemma wr_owe_W x : ok_owe is_utf8 x -> Writes (wr_owe x) (enc_owe x).
Proof.
  intros ((L & W) & Ws & Ls & U & B). unfold wr_owe, enc_owe. eapply Writes_eq.
  { apply wseq_W with (bss := [owe_bssid x; [N.of_nat (length (owe_ssid x))]; owe_ssid x] ++ match owe_band x with Some (a, b) => [[a] ++ [b]] | None => [] end).
    apply Forall2_app.
    - constructor; [apply wr_bytes_W|]. constructor; [apply wr_u8_small; lia|]. constructor; [apply wr_bytes_W|constructor].
    - destruct (owe_band x) as [[a b]|]; cbn [opt_writer]; constructor; [|constructor]. cbn [fst snd]. destruct B as [Ba Bb].
      eapply Writes_eq; [apply wseq_W; constructor; [now apply wr_u8_small|constructor; [now apply wr_u8_small|constructor]]|reflexivity]. }
  rewrite concat_app. cbn [concat]. rewrite app_nil_r, <- !app_assoc. do 3 f_equal. destruct (owe_band x) as [[a b]|]; reflexivity.
Qed.
Lemma owe_round_trip : RoundTrip OWETransitionModeElement owe_ok (fun x => x).
Proof.
  intros x (O & E). exists (enc_owe x). cbn [OWETransitionModeElement et_write et_measure et_read].
  split; [now apply wr_owe_W|]. destruct O as ((L & W) & Ws & Ls & U & B). destruct x as [bssid ssid band]. projs. split; [|split].
  - unfold enc_owe. projs. lens. destruct band as [[a b]|]; cbn [length app]; lia.
  - unfold enc_owe. projs. wf; try (unfold u8 in *; lia). destruct band as [[a b]|]; [|wf]. destruct B. wf.
  - unfold ReadsAll, rd_owe, enc_owe. projs.
    set (tl := match band with Some (a, b) => [a] ++ [b] | None => [] end).
    pose proof (At_start (bssid ++ [N.of_nat (length ssid)] ++ ssid ++ tl)) as A.
    rewrite (gread_step (rd_bytes 6) _ _ bssid bssid _ A) by (first [now apply rd_bytes_R | intros ->; discriminate]). cbn [rbind]. apply At_step in A.
    rstep A. rewrite Nat2N.id.
    assert (EN : end_ok (ssid ++ tl)).
    { destruct E as [E|[E|E]]; [now left|right|right]; intros X; apply app_eq_nil in X as [X1 X2]; [auto|]. destruct band as [[a b]|]; [discriminate|congruence]. }
    rewrite (gread_at (rd_str (length ssid)) _ _ _ A EN). rewrite (rd_str_R ssid U). cbn [rbind]. apply At_step in A.
    unfold gread_ok. destruct band as [[a b]|]; subst tl.
    + rewrite (gread_at rd_band _ _ _ A) by (right; discriminate).
      rewrite <- (app_nil_r ([a] ++ [b])), (rd_band_R a b). cbn [rbind]. do 2 f_equal. lens. lia.
    + unfold gread. destruct (end_bad _ _).
      { cbn [rbind]. do 2 f_equal. lens. lia. }
      destruct A as [A1 A2]. rewrite A1. destruct rd_band_nil as [e ->]. cbn [rbind]. do 2 f_equal. lens. lia.
Qed.
Lemma rd_owe_NP : NoPanic rd_owe.
Proof.
  intros f. unfold rd_owe. pose proof rd_str_NP. np.
  unfold gread_ok. match goal with |- context [gread rd_band ?a ?b] => assert (Y : gread rd_band a b <> Panic) by (apply gread_no_panic, rd_band_NP); destruct (gread rd_band a b) as [[? ?]| |]; cbn [rbind]; congruence end.
Qed.

(** ** Key data encapsulations *)
Lemma kde_bytes_fixed sel n : n <> 0 ->
  FixedLayout (kde_bytes sel n) (VendorSpecific [0x00; 0x0f; 0xac; sel]%N) n (byte_array n) any_bytes (fun x => x).
Proof.
  intros N. apply fixed_intro; cbn [kde_bytes et_id et_measure et_write et_read]; auto.
  - intros w (L & W). repeat split; auto.
  - intros w O. apply pwrite0_W, wr_bytes_W.
  - intros w (L & W). now apply rd_bytes_R.
  - intros bs W L _. exists bs. repeat split; auto.
  - apply rd_bytes_NP.
  - intros bs w k E. apply rd_bytes_inv in E as (-> & r & -> & L). lens. lia.
Qed.
Lemma lifetime_fixed : FixedLayout LifetimeKde (VendorSpecific [0x00; 0x0f; 0xac; 7]%N) 4 u32 any_bytes (be_bytes 4).
Proof.
  apply fixed_intro; cbn [LifetimeKde et_id et_measure et_write et_read]; auto.
  - intros w O. repeat split. apply be_bytes_wf.
  - intros w O. apply pwrite0_W, wr_bytes_W.
  - intros w O. now apply rd_be_R.
  - intros bs W L _. destruct (split_be 4 bs) as (v & r & Hv & -> & _ & Lr); [auto|lia|].
    rewrite L in Lr. apply length0 in Lr. subst. exists v. rewrite app_nil_r. auto.
  - apply rd_be_NP.
  - intros bs w n E. pose proof (rd_be_IB 4 _ _ _ E). apply rd_be_size in E. lia.
Qed.
Lemma gtk_round_trip : RoundTrip GtkKde ok_gtk (fun x => x).
Proof.
  intros [i k] (I & W). exists (enc_gtk (mkGtk i k)). cbn [GtkKde et_write et_measure et_read]. unfold enc_gtk. projs.
  split; [|split; [|split]].
  - unfold wr_gtk. projs. writes_seq.
  - reflexivity.
  - wf.
  - unfold ReadsAll, rd_gtk. pose proof (At_start (le_bytes 2 i ++ k)) as A. rstep A.
    rewrite slice_from_ok by (lens; lia). cbn [rbind]. destruct A as [A _]. rewrite A. reflexivity.
Qed.
Lemma rd_gtk_NP : NoPanic rd_gtk.
Proof.
  intros f. unfold rd_gtk. destruct (gread (rd_le 2) f 0) as [[x n]| |] eqn:G; cbn [rbind]; try discriminate.
  - apply gread_bounds in G; [|apply rd_le_IB]. rewrite slice_from_ok by lia. discriminate.
  - exfalso. revert G. apply gread_no_panic, rd_le_NP.
Qed.

(** ** Mesh peering management *)
Lemma int16_ne v : int16 v = ne_bytes 2 v. Proof. reflexivity. Qed.
Lemma rest_writes_ok ws bss w bs : Forall2 Writes ws bss -> WritesT w bs -> bs <> [] -> length (concat bss ++ bs) <= 20 ->
  rest_writes (ws ++ [w]) = Ok ((concat bss ++ bs) ++ repeat 0%N (20 - length (concat bss ++ bs)), length (concat bss ++ bs)).
Proof.
  intros F T N L. unfold rest_writes. pose proof (wseq_T ws bss w bs F T N) as [_ H]. unfold wseq in H.
  rewrite H by (rewrite repeat_length; exact L). cbn [res_unwrap]. do 3 f_equal.
  clear. generalize (length (concat bss ++ bs)). intros n. change 20 with (0 + 20) at 1. generalize 20. intros m.
  revert m. induction n as [|n IH]; intros [|m]; try reflexivity. exact (IH m).
Qed.
Lemma rest_writes_nil : rest_writes [] = Ok (repeat 0%N 20, 0). Proof. reflexivity. Qed.
Lemma pmk_ne (k : bytes) : length k = 16 -> k <> []. Proof. intros L ->. discriminate. Qed.
Lemma new_open_is p l pmk : ok_pmk pmk -> exists x, peering_new_open p l pmk = Ok x /\ peering_is p l (enc_open pmk) x.
Proof.
  intros O. unfold peering_new_open, peering_is, enc_open. destruct pmk as [k|]; cbn [opt_writer opt_bytes].
  - destruct O as (L & W). change [wr_bytes k] with ([] ++ [wr_bytes k]).
    rewrite (rest_writes_ok [] [] _ k) by (first [exact (Forall2_nil _) | apply wr_bytes_T | now apply pmk_ne | cbn [concat app]; lia]). eexists. split; reflexivity.
  - rewrite rest_writes_nil. eexists. split; reflexivity.
Qed.
Lemma wr_ne_T' v : WritesT (wr_ne 2 v) (int16 v). Proof. apply wr_ne_T. Qed.
Lemma int16_length v : length (int16 v) = 2. Proof. apply ne_bytes_length. Qed.
Lemma int16_ne_nil v : int16 v <> []. Proof. apply ne_bytes_ne. discriminate. Qed.
Lemma new_confirm_is p l peer pmk : ok_pmk pmk -> exists x, peering_new_confirm p l peer pmk = Ok x /\ peering_is p l (enc_confirm peer pmk) x.
Proof.
  intros O. unfold peering_new_confirm, peering_is, enc_confirm. destruct pmk as [k|]; cbn [opt_writer opt_bytes].
  - destruct O as (L & W). change (wr_ne 2 peer :: [wr_bytes k]) with ([wr_ne 2 peer] ++ [wr_bytes k]).
    rewrite (rest_writes_ok [wr_ne 2 peer] [int16 peer] _ k);
      [|constructor; [apply wr_ne_T'|constructor]|apply wr_bytes_T|now apply pmk_ne|].
    + cbn [concat rbind]. rewrite app_nil_r. eexists. split; reflexivity.
    + cbn [concat]. rewrite app_nil_r. lens. rewrite int16_length. lia.
  - change [wr_ne 2 peer] with ([] ++ [wr_ne 2 peer]).
    rewrite (rest_writes_ok [] [] _ (int16 peer)) by (first [exact (Forall2_nil _) | apply wr_ne_T' | apply int16_ne_nil | cbn [concat app]; rewrite int16_length; lia]).
    cbn [concat rbind app]. rewrite app_nil_r. eexists. split; reflexivity.
Qed.
Lemma new_close_is p l peer r pmk : ok_pmk pmk -> exists x, peering_new_close p l peer r pmk = Ok x /\ peering_is p l (enc_close peer (reason_into_bits r) pmk) x.
Proof.
  intros O. unfold peering_new_close, peering_is, enc_close. generalize (reason_into_bits r). clear r. intros r.
  destruct pmk as [k|]; cbn [opt_writer opt_bytes].
  - destruct O as (L & W).
    assert (X : exists bss, Forall2 Writes (opt_writer (wr_ne 2) peer ++ [wr_ne 2 r]) bss /\ concat bss = opt_bytes int16 peer ++ int16 r).
    { destruct peer as [q|]; cbn [opt_writer opt_bytes app].
      - exists [int16 q; int16 r]. split; [|cbn [concat]; now rewrite app_nil_r]. repeat (constructor; [apply wr_ne_T'|]). constructor.
      - exists [int16 r]. split; [|cbn [concat]; now rewrite app_nil_r]. repeat (constructor; [apply wr_ne_T'|]). constructor. }
    destruct X as (bss & F & C).
    replace (opt_writer (wr_ne 2) peer ++ wr_ne 2 r :: [wr_bytes k]) with ((opt_writer (wr_ne 2) peer ++ [wr_ne 2 r]) ++ [wr_bytes k]) by now rewrite <- app_assoc.
    rewrite (rest_writes_ok _ bss _ k F); [|apply wr_bytes_T|now apply pmk_ne|].
    + rewrite C, <- !app_assoc. eexists. split; reflexivity.
    + rewrite C. lens. rewrite int16_length. destruct peer; cbn [opt_bytes]; rewrite ?int16_length; cbn [length]; lia.
  - assert (X : exists bss, Forall2 Writes (opt_writer (wr_ne 2) peer) bss /\ concat bss = opt_bytes int16 peer).
    { destruct peer as [q|]; cbn [opt_writer opt_bytes].
      - exists [int16 q]. split; [|cbn [concat]; now rewrite app_nil_r]. repeat (constructor; [apply wr_ne_T'|]). constructor.
      - exists []. split; [constructor|reflexivity]. }
    destruct X as (bss & F & C).
    rewrite (rest_writes_ok _ bss _ (int16 r) F); [|apply wr_ne_T'|apply int16_ne_nil|].
    + rewrite C, app_nil_r. eexists. split; reflexivity.
    + rewrite C. lens. rewrite int16_length. destruct peer; cbn [opt_bytes]; rewrite ?int16_length; cbn [length]; lia.
Qed.
(** reading the rest back *)
Lemma rest_read16 x off v rest : At (mp_rest x) off (int16 v ++ rest) -> u16 v -> rest_read (rd_ne 2) x off = Ok (v, off + 2).
Proof.
  intros A V. unfold rest_read. rewrite (gread_step (rd_ne 2) _ _ (int16 v) v rest A) by (first [apply rd_ne_R, V | apply int16_ne_nil]).
  rewrite int16_length. reflexivity.
Qed.
Lemma rest_read_key x off k rest : At (mp_rest x) off (k ++ rest) -> length k = 16 -> rest_read (rd_bytes 16) x off = Ok (k, off + 16).
Proof.
  intros A V. unfold rest_read. rewrite (gread_step (rd_bytes 16) _ _ k k rest A) by (first [now apply rd_bytes_R | now apply pmk_ne]).
  now rewrite V.
Qed.
Lemma parse_open p l pmk x : ok_pmk pmk -> peering_is p l (enc_open pmk) x ->
  parse_as_open x = Ok (Some (mkParsed p l None None pmk)) /\ parse_as_confirm x = Ok None /\ parse_as_close x = Ok None.
Proof.
  intros O ->. unfold enc_open, parse_as_open, parse_as_confirm, parse_as_close. cbn [mp_rest_len mp_protocol mp_local].
  destruct pmk as [k|]; cbn [opt_bytes].
  - destruct O as [L _]. rewrite L. cbn [Nat.eqb]. split; [|auto].
    erewrite rest_read_key; [reflexivity| |exact L]. cbn [mp_rest]. apply At_start.
  - cbn. auto.
Qed.
Lemma parse_confirm p l peer pmk x : u16 peer -> ok_pmk pmk -> peering_is p l (enc_confirm peer pmk) x ->
  parse_as_confirm x = Ok (Some (mkParsed p l (Some peer) None pmk)) /\ parse_as_open x = Ok None.
Proof.
  intros P O ->. unfold enc_confirm, parse_as_open, parse_as_confirm. cbn [mp_rest_len mp_protocol mp_local].
  rewrite app_length, int16_length. destruct pmk as [k|]; cbn [opt_bytes].
  - destruct O as [L _]. rewrite L. cbn [Nat.eqb Nat.add]. split; [|auto].
    match goal with |- context [rest_read _ ?y 0] => pose proof (At_start (mp_rest y)) as A end. cbn [mp_rest] in A. rewrite <- !app_assoc in A.
    rewrite <- !app_assoc.
    erewrite rest_read16 by (first [exact A | exact P]). cbn [rbind]. apply At_step in A. rewrite int16_length in A.
    erewrite rest_read_key by (first [exact A | exact L]). reflexivity.
  - cbn [length Nat.add Nat.eqb]. split; [|auto]. rewrite !app_nil_r.
    erewrite rest_read16; [reflexivity| |exact P]. cbn [mp_rest]. apply At_start.
Qed.
Lemma parse_close p l peer r pmk x : ok_link peer -> ok_reason r -> ok_pmk pmk -> peering_is p l (enc_close peer (reason_into_bits r) pmk) x ->
  parse_as_close x = Ok (Some (mkParsed p l peer (Some r) pmk)) /\ parse_as_open x = Ok None /\
  (peer <> None -> parse_as_confirm x = Ok None).
Proof.
  intros P (RC & RB) O ->. unfold enc_close, parse_as_open, parse_as_close, parse_as_confirm. cbn [mp_rest_len mp_protocol mp_local].
  generalize (repeat 0%N (20 - length (opt_bytes int16 peer ++ int16 (reason_into_bits r) ++ opt_bytes (fun k => k) pmk))). intros pad.
  rewrite !app_length, int16_length.
  match goal with |- context [rest_read _ ?y 0] => pose proof (At_start (mp_rest y)) as A end. cbn [mp_rest] in A. rewrite <- !app_assoc in A.
  rewrite <- !app_assoc.
  destruct pmk as [k|], peer as [q|]; cbn [opt_bytes] in *; rewrite ?int16_length.
  - destruct O as [L _]. rewrite L. cbn [Nat.eqb Nat.add length]. repeat split.
    erewrite rest_read16 by (first [exact A | exact P]). cbn [rbind]. apply At_step in A. rewrite int16_length in A.
    erewrite rest_read16 by (first [exact A | exact RB]). cbn [rbind]. apply At_step in A. rewrite int16_length in A.
    erewrite rest_read_key by (first [exact A | exact L]). cbn [rbind]. now rewrite RC.
  - destruct O as [L _]. rewrite L. cbn [Nat.eqb Nat.add length app] in *. split; [|split; [auto|congruence]].
    erewrite rest_read16 by (first [exact A | exact RB]). cbn [rbind]. apply At_step in A. rewrite int16_length in A.
    erewrite rest_read_key by (first [exact A | exact L]). cbn [rbind]. now rewrite RC.
  - cbn [Nat.eqb Nat.add length app] in *. repeat split.
    erewrite rest_read16 by (first [exact A | exact P]). cbn [rbind]. apply At_step in A. rewrite int16_length in A.
    erewrite rest_read16 by (first [exact A | exact RB]). cbn [rbind]. now rewrite RC.
  - cbn [Nat.eqb Nat.add length app] in *. split; [|split; [auto|congruence]].
    erewrite rest_read16 by (first [exact A | exact RB]). cbn [rbind]. now rewrite RC.
Qed.
(** on the wire *)
Lemma wr_peering_W p l rest x : length rest <= 20 -> peering_is p l rest x -> Writes (wr_peering x) (enc_peering p l rest).
Proof.
  intros L ->. unfold enc_peering.
  eapply Writes_ext with (w := wseq [wr_ne 2 (mesh_peering_proto_into_bits p); wr_ne 2 l; wr_bytes rest]).
  - intros buf. unfold wr_peering, wseq. cbn [wseq_from mp_protocol mp_local mp_rest mp_rest_len].
    destruct (gwrite _ buf 0) as [[b o]| |]; cbn [rbind]; try reflexivity.
    destruct (gwrite _ b o) as [[b' o']| |]; cbn [rbind]; try reflexivity.
    rewrite slice_to_ok by (lens; lia). cbn [rbind]. rewrite firstn_app_exact by reflexivity.
    destruct (gwrite _ b' o') as [[b'' o'']| |]; reflexivity.
  - eapply Writes_eq; [apply wseq_W; constructor; [apply wr_ne_T'|constructor; [apply wr_ne_T'|constructor; [apply wr_bytes_W|constructor]]]|].
    cbn [concat]. now rewrite app_nil_r.
Qed.
Lemma rd_peering_spec p l rest x : ok_proto p -> u16 l -> length rest <= 20 -> peering_is p l rest x ->
  rd_peering (enc_peering p l rest) = Ok (x, 4).
Proof.
  intros (PC & PB) Hl L ->. unfold rd_peering, enc_peering. remember (mesh_peering_proto_into_bits p) as q.
  pose proof (At_start (int16 q ++ int16 l ++ rest)) as A. rewrite !int16_ne in *.
  rstep A. rstep A. lens. rewrite slice_from_ok by (lens; lia). destruct A as [A1 A2]. rewrite ?ne_bytes_length in A1. rewrite ?ne_bytes_length. rewrite A1.
  cbn [rbind]. rewrite Nat.min_r by exact L. rewrite Nat.eqb_refl, PC. reflexivity.
Qed.
(** exactly when the reader panics *)
Lemma rd_peering_cases bs : wf_bytes bs ->
  (length bs < 4 -> exists e, rd_peering bs = Err e) /\
  (4 <= length bs <= 24 -> exists p l rest x, ok_proto p /\ u16 l /\ peering_is p l rest x /\ bs = enc_peering p l rest /\ rd_peering bs = Ok (x, 4)) /\
  (24 < length bs -> rd_peering bs = Panic).
Proof.
  intros W. split; [|split].
  - intros L. unfold rd_peering.
    destruct (gread (rd_ne 2) bs 0) as [[x n]|e|] eqn:G; cbn [rbind]; [|eauto|].
    + destruct (gread (rd_ne 2) bs n) as [[y m]|e|] eqn:G2; cbn [rbind]; [|eauto|].
      * exfalso. pose proof (gread_size _ 2 _ _ _ _ (rd_ne_size 2) G). pose proof (gread_size _ 2 _ _ _ _ (rd_ne_size 2) G2).
        apply gread_bounds in G2; [lia|apply rd_ne_IB].
      * exfalso. revert G2. apply gread_no_panic, rd_ne_NP.
    + exfalso. revert G. apply gread_no_panic, rd_ne_NP.
  - intros L.
    destruct (split_ne 2 bs) as (p & r & Hp & -> & Wr & Lr); [auto|lia|].
    destruct (split_ne 2 r) as (l & r' & Hl & -> & Wr' & Lr'); [auto|lia|].
    exists (mesh_peering_proto_from_bits p), l, r', (mkPeering (mesh_peering_proto_from_bits p) l (r' ++ repeat 0%N (20 - length r')) (length r')).
    assert (OP : ok_proto (mesh_peering_proto_from_bits p)).
    { unfold ok_proto, canonical. rewrite mesh_peering_proto_into_from. auto. }
    assert (E : ne_bytes 2 p ++ ne_bytes 2 l ++ r' = enc_peering (mesh_peering_proto_from_bits p) l r').
    { unfold enc_peering. rewrite mesh_peering_proto_into_from. reflexivity. }
    rewrite E. repeat split; auto; try apply OP. apply rd_peering_spec; auto; [|reflexivity].
    revert L. lens. lia.
  - intros L.
    destruct (split_ne 2 bs) as (p & r & Hp & -> & Wr & Lr); [auto|lia|].
    destruct (split_ne 2 r) as (l & r' & Hl & -> & Wr' & Lr'); [auto|lia|].
    unfold rd_peering. pose proof (At_start (ne_bytes 2 p ++ ne_bytes 2 l ++ r')) as A. rstep A. rstep A. revert L. lens. intros L.
    rewrite slice_from_ok by (lens; lia). destruct A as [A1 A2]. rewrite ?ne_bytes_length in *. rewrite A1.
    cbn [rbind]. rewrite Nat.min_l by lia. destruct (Nat.eqb_spec 20 (length r')); [lia|reflexivity].
Qed.
End Facts.
