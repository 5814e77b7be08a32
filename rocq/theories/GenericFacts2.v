(** Proofs about dispatching on frame types and about control frames. *)
From Coq Require Import Permutation.
From Verif Require Import Base BaseFacts Bits Layouts BitsFacts Enums EnumsFacts Common SpecBase SpecCommon CommonFacts Crc CrcFacts
  Elements ElementsFacts ElementTypes SpecElementTypes ElementTypesFacts StepsFacts Mgmt SpecMgmt MgmtFacts MgmtFacts2 MgmtFacts3 MgmtFacts4 MgmtFacts5
  CryptoHeader Amsdu Data SpecData DataFacts DataFacts2 DataFacts3 Control Generic SpecGeneric GenericFacts.

Section Facts.
Context {cfg : Cfg}.

Lemma pread_start {A} (r : reader A) g : g <> [] -> pread r g 0 = ('(x, _) <- r g ;; Ok x).
Proof.
  intros N. unfold pread, gread. rewrite end_bad_lt by (destruct g; [congruence|cbn; lia]). cbn [skipn].
  destruct (r g) as [[x n]| |]; reflexivity.
Qed.
Lemma rd_data_any g : wf_bytes g -> 10 <= length g -> is_type 2 g ->
  let n := data_header_size (byte g 0) (byte g 1) in
  (n <= length g -> exists h, subtype_number h = frame_subtype_bits g /\ dh_flags h = byte g 1 /\
     pread (rd_data false) g 0 = Ok (h, if std_has_payload (frame_subtype_bits g) then Some (data_payload g) else None)) /\
  (length g < n -> exists e, pread (rd_data false) g 0 = Err e).
Proof.
  intros W L T n. destruct g as [|b0 [|b1 rest]]; try (cbn in L; lia).
  unfold is_type, frame_type_bits, frame_subtype_bits, data_payload in *. cbn [byte nth] in *. unfold byte in *. cbn [nth] in *.
  rewrite pread_start by discriminate. unfold rd_data. cbn [rbind]. unfold gread. rewrite end_bad_lt by (cbn; lia). cbn [skipn].
  split.
  - intros B. destruct (data_header_accept b0 b1 rest W T B) as (h & tail & H & F & SN & R & Wt & Ln & RD).
    rewrite RD. cbn [rbind Nat.add]. pose proof H as (C & _). destruct (data_subtype_std _ C) as [_ HP]. rewrite HP. fold (subtype_number h). rewrite SN.
    exists h. split; [exact SN|]. split; [exact F|]. destruct (std_has_payload ((b0 / 16) mod 16)); [|reflexivity].
    fold n in Ln. rewrite Ln. rewrite slice_from_ok by lia. reflexivity.
  - intros B. destruct (data_header_refuse (b0 :: b1 :: rest) W) as [e ->]; [|cbn [rbind]; eauto].
    intros c0 c1 r [= <- <- <-]. right. exact B.
Qed.
Lemma arr_eqb_2 (l : bytes) a b : length l = 2 -> (arr_eqb l [a; b] = true <-> l = [a; b]).
Proof.
  intros L. destruct l as [|x [|y [|]]]; try discriminate. cbn [arr_eqb]. rewrite !andb_true_iff, !N.eqb_eq.
  split; [now intros (-> & -> & _)|]. intros [= -> ->]. auto.
Qed.
Lemma eapol_exact g : wf_bytes g -> 10 <= length g ->
  exists b, gf_is_eapol_key_frame g = Ok b /\ (b = true <-> is_eapol g).
Proof.
  intros W L. unfold gf_is_eapol_key_frame, is_eapol. rewrite gf_fcf_ok by exact L. cbn [rbind]. destruct (gf_type g W L) as [-> _].
  pose proof (type_bits_lt g) as Ht. pose proof (subtype_bits_lt g) as Hs. unfold is_type.
  assert (frame_type_bits g = 0 \/ frame_type_bits g = 1 \/ frame_type_bits g = 2 \/ frame_type_bits g = 3)%N as [E|[E|[E|E]]] by lia;
    rewrite E; cbn [type_of_bits]; try (exists false; split; [reflexivity|]; split; [discriminate|intros (X & _); discriminate]).
  assert (HP : data_has_payload (data_subtype_from_bits (frame_subtype_bits g)) = negb (N.testbit (frame_subtype_bits g) 2)).
  { destruct (N.eqb_spec (frame_subtype_bits g) 13) as [-> |K]; [reflexivity|]. now destruct (data_subtype_bits _ Hs K) as (_ & ? & _). }
  rewrite HP, negb_involutive. destruct (N.testbit (frame_subtype_bits g) 2) eqn:TB.
  { exists false. split; [reflexivity|]. split; [discriminate|intros (_ & X & _); discriminate]. }
  unfold gf_parse. destruct (type_matches_spec g W L) as [[m [M1 M2]] _]. rewrite M1. rewrite (proj2 M2 E). cbn [rbind].
  destruct (rd_data_any g W L E) as [A B]. set (n := data_header_size (byte g 0) (byte g 1)) in *.
  destruct (le_lt_dec n (length g)) as [Q|Q].
  - destruct (A Q) as (h & _ & _ & ->). unfold std_has_payload. rewrite TB. cbn [rbind negb]. eexists. split; [reflexivity|].
    unfold data_payload. fold n. rewrite skipn_length. unfold field_at.
    destruct (Nat.leb_spec (n + 6 + 2) (length g)) as [X|X].
    + rewrite (proj2 (Nat.leb_le _ _)) by lia. cbn [andb]. rewrite skipn_skipn_add. replace (n + 6) with (6 + n) by lia.
      rewrite arr_eqb_2 by (rewrite firstn_length, skipn_length; lia).
      split; [intros ->; auto|]. intros (_ & _ & Y). now injection Y.
    + rewrite (proj2 (Nat.leb_gt _ _)) by lia. split; [discriminate|]. intros (_ & _ & Y). discriminate.
  - destruct (B Q) as [e ->]. cbn [rbind]. exists false. split; [reflexivity|]. split; [discriminate|].
    intros (_ & _ & Y). unfold field_at in Y. destruct (Nat.leb_spec (n + 6 + 2) (length g)); [lia|discriminate].
Qed.
Lemma parse_exact {A} k P (r : bool -> reader A) g : In (k, P) (raw_kind :: kinds) -> wf_bytes g -> 10 <= length g ->
  (P g -> gf_parse k r g = (x <- pread (r false) g 0 ;; Ok (Some x))) /\ (~ P g -> gf_parse k r g = Ok None).
Proof.
  intros I W L. destruct (kinds_match k P g I W L) as (b & M & E). unfold gf_parse. rewrite M. cbn [rbind].
  split; intros H; destruct b; try reflexivity; exfalso.
  - apply E in H. discriminate.
  - apply H, E, eq_refl.
Qed.
(** ** [match_frames!] *)
Lemma dispatch {A} (l : list (nat * Arm A)) g : typed_arms l -> wf_bytes g -> 10 <= length g ->
  (forall i a P, In (i, a) l -> nth_error kinds i = Some (arm_kind _ a, P) -> P g ->
     try_arms (map snd l) g = (x <- pread (arm_read _ a false) g 0 ;; Ok (arm_block _ a x))) /\
  ((forall i a P, In (i, a) l -> nth_error kinds i = Some (arm_kind _ a, P) -> ~ P g) -> try_arms (map snd l) g = Err BadInput).
Proof.
  intros [ND FA] W L. induction l as [|[i a] l IH]; [split; [contradiction|reflexivity]|].
  cbn [map fst] in ND. apply NoDup_cons_iff in ND as [NI ND]. apply Forall_cons_iff in FA as [[P K] FA]. cbn [fst snd] in K.
  specialize (IH ND FA) as [IH1 IH2].
  assert (IK : In (arm_kind _ a, P) (raw_kind :: kinds)) by (right; eapply nth_error_In; exact K).
  destruct (kinds_match _ P g IK W L) as (b & M & E). cbn [map snd try_arms]. rewrite M. cbn [rbind]. split.
  - intros j a' P' [J|J] K' H.
    + injection J as <- <-. assert (P' = P) as -> by congruence. apply E in H. subst b. reflexivity.
    + destruct b.
      * exfalso. assert (i = j) as <- by (eapply kinds_exclusive; [exact K|exact K'|now apply E|exact H]).
        apply NI. apply in_map_iff. exists (i, a'). auto.
      * now apply (IH1 j a' P').
  - intros N. destruct b; [exfalso; apply (N i a P (or_introl eq_refl) K); now apply E|].
    apply IH2. intros j a' P' J. apply (N j a' P'). now right.
Qed.
Lemma kinds_decide i k P g : nth_error kinds i = Some (k, P) -> wf_bytes g -> 10 <= length g -> {P g} + {~ P g}.
Proof.
  intros K W L. destruct (gf_matches k g) as [[]| |] eqn:M.
  - left. destruct (kinds_match k P g) as (b & M' & E); auto; [right; eapply nth_error_In; exact K|]. apply E. congruence.
  - right. destruct (kinds_match k P g) as (b & M' & E); auto; [right; eapply nth_error_In; exact K|]. intros H. apply E in H. congruence.
  - exfalso. destruct (kinds_match k P g) as (b & M' & E); auto; [right; eapply nth_error_In; exact K|]. congruence.
  - exfalso. destruct (kinds_match k P g) as (b & M' & E); auto; [right; eapply nth_error_In; exact K|]. congruence.
Qed.
Lemma dispatch_permuted {A} (l l' : list (nat * Arm A)) g : Permutation l l' -> typed_arms l -> wf_bytes g -> 10 <= length g ->
  try_arms (map snd l) g = try_arms (map snd l') g.
Proof.
  intros PM T W L.
  assert (T' : typed_arms l').
  { destruct T as [ND FA]. split; [eapply Permutation_NoDup; [apply Permutation_map; exact PM|exact ND]|eapply Permutation_Forall; eassumption]. }
  destruct (dispatch l g T W L) as [D1 D2]. destruct (dispatch l' g T' W L) as [D1' D2'].
  assert (X : (exists i a P, In (i, a) l /\ nth_error kinds i = Some (arm_kind _ a, P) /\ P g) \/
              (forall i a P, In (i, a) l -> nth_error kinds i = Some (arm_kind _ a, P) -> ~ P g)).
  { destruct T as [_ FA]. clear -FA W L. induction l as [|[i a] l IH]; [right; contradiction|].
    apply Forall_cons_iff in FA as [[P K] FA]. cbn [fst snd] in K. destruct (kinds_decide i _ P g K W L) as [H|H].
    - left. exists i, a, P. cbn. auto.
    - destruct (IH FA) as [(j & b & Q & J)|N]; [left; exists j, b, Q; cbn; tauto|right].
      intros j b Q [J|J] K'; [injection J as <- <-; congruence|now apply (N j b)]. }
  destruct X as [(i & a & P & I & K & H)|N].
  - rewrite (D1 i a P I K H), (D1' i a P); auto. eapply Permutation_in; eassumption.
  - rewrite D2 by exact N. rewrite D2'; [reflexivity|]. intros i a P I. apply (N i a P). eapply Permutation_in; [symmetry; exact PM|exact I].
Qed.
Lemma match_frames_permuted {A} (l l' : list (nat * Arm A)) bs w : Permutation l l' -> typed_arms l -> wf_bytes bs ->
  match_frames bs w (map snd l) = match_frames bs w (map snd l').
Proof.
  intros PM T W. unfold match_frames. pose proof (gf_new_spec bs W) as [N1 N2].
  set (f := match w with Some _ => true | None => false end).
  destruct (gf_new bs f) as [g|e|] eqn:G; cbn [rbind]; try reflexivity.
  assert (X : wf_bytes g /\ 10 <= length g).
  { destruct f; rewrite G in *.
    - destruct N2 as [-> L]. split; [now apply wf_bytes_app in W|exact L].
    - destruct (Nat.ltb_spec (length bs) 10); [discriminate|]. injection N1 as ->. auto. }
  now apply dispatch_permuted.
Qed.
(** ** What is written is recognised *)
Lemma written_recognised s h body : (s < 16)%N -> ok_mgmt_header h ->
  is_mgmt s (enc_mgmt s h body) /\ mgmt_body (enc_mgmt s h body) = body.
Proof.
  intros Hs OK. unfold is_mgmt, frame_type_bits, frame_subtype_bits, mgmt_body, enc_mgmt, enc_fcf, byte. cbn [app nth].
  split; [lia|]. pose proof (mgmt_header_length h OK) as LH. unfold mh_length in LH.
  destruct OK as (_ & _ & _ & _ & _ & _ & OK).
  replace (if N.testbit (mh_flags h) 7 then 28 else 24) with (S (S (length (enc_mgmt_header h))))
    by (destruct (mh_ht h); [destruct OK as [OK _]|]; rewrite OK; lia).
  cbn [skipn]. now apply skipn_app_exact.
Qed.
(** ** Control frames *)
Local Ltac lens := rewrite ?app_length, ?le_bytes_length; cbn [length].
Lemma ctrl_round_trip c : ok_ctrl c ->
  Writes (wr_ctrl c) (enc_ctrl c) /\ (enc_ctrl c <> [] -> WritesT (wr_ctrl c) (enc_ctrl c)) /\
  rd_ctrl (ctrl_subtype c) (ctrl_flags c) (enc_ctrl c) = Ok (c, length (enc_ctrl c)).
Proof.
  assert (T : forall bss, bss <> [] -> Forall (fun b => b <> []) bss -> WritesT (wseq (map wr_bytes bss)) (concat bss)).
  { intros bss N F. apply wseq_allT; [|destruct bss; [congruence|discriminate]]. clear N. induction F; constructor; auto. split; [apply wr_bytes_T|assumption]. }
  assert (K : forall a, length a = 6 -> a <> @nil N) by (intros [|]; discriminate).
  destruct c as [f d ra ta|f d ra|f d ra|s f body]; cbn [ok_ctrl ctrl_flags wr_ctrl enc_ctrl ctrl_subtype].
  - intros (_ & Hd & [La Wa] & [Lt Wt]). unfold u16 in Hd.
    assert (X : WritesT (wseq [wr_le 2 d; wr_bytes ra; wr_bytes ta]) (le_bytes 2 d ++ ra ++ ta)).
    { specialize (T [le_bytes 2 d; ra; ta]). cbn [concat] in T. rewrite app_nil_r in T. apply T; [discriminate|]. repeat constructor; auto. discriminate. }
    split; [apply X|]. split; [auto|].
    unfold rd_ctrl. match goal with |- context [gread _ ?x 0] => pose proof (At_start x) as A end. rewrite <- (app_nil_r ta) in A at 2. rewrite <- ?app_assoc in A.
    rstep A. rstep A. rstep A. do 2 f_equal; lens; lia.
  - intros (_ & Hd & [La Wa]). unfold u16 in Hd.
    assert (X : WritesT (wseq [wr_le 2 d; wr_bytes ra]) (le_bytes 2 d ++ ra)).
    { specialize (T [le_bytes 2 d; ra]). cbn [concat] in T. rewrite app_nil_r in T. apply T; [discriminate|]. repeat constructor; auto. discriminate. }
    split; [apply X|]. split; [auto|].
    unfold rd_ctrl. match goal with |- context [gread _ ?x 0] => pose proof (At_start x) as A end. rewrite <- (app_nil_r ra) in A at 2. rewrite <- ?app_assoc in A.
    rstep A. rstep A. do 2 f_equal; lens; lia.
  - intros (_ & Hd & [La Wa]). unfold u16 in Hd.
    assert (X : WritesT (wseq [wr_le 2 d; wr_bytes ra]) (le_bytes 2 d ++ ra)).
    { specialize (T [le_bytes 2 d; ra]). cbn [concat] in T. rewrite app_nil_r in T. apply T; [discriminate|]. repeat constructor; auto. discriminate. }
    split; [apply X|]. split; [auto|].
    unfold rd_ctrl. match goal with |- context [gread _ ?x 0] => pose proof (At_start x) as A end. rewrite <- (app_nil_r ra) in A at 2. rewrite <- ?app_assoc in A.
    rstep A. rstep A. do 2 f_equal; lens; lia.
  - intros (_ & C & N1 & N2 & N3 & W). split; [|split].
    + eapply Writes_eq; [apply wseq_W; constructor; [apply wr_bytes_W|constructor]|]. cbn [concat]. now rewrite app_nil_r.
    + intros N. specialize (T [body]). cbn [concat map] in T. rewrite app_nil_r in T. apply T; [discriminate|]. now constructor.
    + destruct s; try reflexivity; congruence.
Qed.
Lemma ctrl_fcf_spec c : ok_ctrl c -> exists x, @ctrl_fcf _ serr c = Ok x /\ (x < 65536)%N /\
  le_bytes 2 x = enc_fcf 1 (ctrl_subtype_into_bits (ctrl_subtype c)) (ctrl_flags c) /\
  fcf_frame_type x = FT_Control (ctrl_subtype c) /\ fcf_flags x = ctrl_flags c.
Proof.
  intros H. assert (C : canonical_frame_type (FT_Control (ctrl_subtype c))).
  { destruct c; cbn [ctrl_subtype]; try (split; reflexivity). apply H. }
  assert (F : (ctrl_flags c < 256)%N) by apply H.
  exists (fcf_make (FT_Control (ctrl_subtype c)) (ctrl_flags c)).
  destruct (fcf_make_read _ _ C F) as (B & V & T & FF).
  split; [|split; [exact B|split; [now rewrite (fcf_bytes _ _ C F)|auto]]].
  unfold ctrl_fcf, lwith. rewrite fcf_pos_type.
  assert (X : (N.ones 6 <? frame_type_into_bits (FT_Control (ctrl_subtype c)))%N = false).
  { destruct C as [C _]. cbn [frame_type_into_bits]. unfold shl2_u8.
    revert C. generalize (ctrl_subtype_into_bits (ctrl_subtype c)). intros n C.
    assert (S : forallb (fun n => negb (N.ones 6 <? N.lor 1 (N.land (N.shiftl n 2) 255))%N) (Nseq 16) = true) by reflexivity.
    pose proof (sweepN 16 _ S n C) as E. cbn beta in E. now apply negb_true_iff in E. }
  rewrite X, andb_false_r. cbn [rbind]. unfold fcf_make, fcf_with_frame_type, lset. now rewrite fcf_pos_type.
Qed.
Lemma ctrl_lengths c : ok_ctrl c ->
  length (enc_ctrl c) = match c with C_Ack _ _ _ => 8 | _ => ctrl_length c end.
Proof.
  intros [_ H]. destruct c; cbn [enc_ctrl ctrl_length]; unfold address, byte_array in H; lens; intuition lia.
Qed.
Local Ltac short1 G := match goal with |- context [gread ?r ?b ?o] => destruct (gread r b o) as [[? ?]| |] eqn:G end.
Lemma ctrl_received s f bs : wf_bytes bs ->
  match rd_ctrl s f bs with
  | Ok (c, n) => ctrl_subtype c = s /\ ctrl_flags c = f /\ (exists rest, bs = enc_ctrl c ++ rest) /\ n = length (enc_ctrl c) /\
      (canonical_frame_type (FT_Control s) -> u8 f -> ok_ctrl c)
  | Err _ => length bs < match s with Ct_RTS => 14 | Ct_CTS | Ct_Ack => 8 | _ => 0 end
  | Panic => False
  end.
Proof.
  intros W.
  assert (R2 : forall k, 8 <= k -> k <= length bs -> exists d ra r, u16 d /\ address ra /\ bs = le_bytes 2 d ++ ra ++ r /\ wf_bytes r /\ length r = length bs - 8).
  { intros k K L. destruct (split_le 2 bs W) as (d & r1 & Hd & -> & W1 & L1); [lia|]. rewrite app_length, le_bytes_length in L.
    destruct (split_bytes 6 r1 W1) as (ra & r2 & La & Wa & -> & W2 & L2); [lia|]. exists d, ra, r2. split; [exact Hd|]. split; [split; assumption|].
    split; [reflexivity|]. split; [exact W2|]. lens. lia. }
  assert (Sh : forall (A : Type) (r1 : reader A) (k : A -> nat -> Res serr (ControlFrame * nat)) o m b, NoPanic r1 -> (forall f y n, r1 f = Ok (y, n) -> n = b) -> InBounds r1 ->
    (forall x, o + b <= length bs -> match k x (o + b) with Ok _ => False | Err _ => length bs < m | Panic => False end) -> length bs < m ->
    match ('(x, o') <- gread r1 bs o ;; k x o') with Ok _ => False | Err _ => length bs < m | Panic => False end).
  { intros A r1 k o m b NP SZ IB K L. destruct (gread r1 bs o) as [[x o']|e|] eqn:G; cbn [rbind].
    - pose proof (gread_size _ _ _ _ _ _ SZ G) as ->. apply K. now apply gread_bounds in G.
    - exact L.
    - now apply gread_no_panic in G. }
  assert (Fin : forall r : Res serr (ControlFrame * nat), forall (P : ControlFrame -> nat -> Prop) m, match r with Ok _ => False | Err _ => length bs < m | Panic => False end ->
     match r with Ok (c, n) => P c n | Err _ => length bs < m | Panic => False end).
  { intros [[c n]| |] P m; tauto. }
  assert (S2 : forall f y n, rd_le 2 f = Ok (y, n) -> n = 2) by (intros; eapply rd_le_size; eassumption).
  assert (S6 : forall f y n, rd_bytes 6 f = Ok (y, n) -> n = 6) by (intros; eapply rd_bytes_size; eassumption).
  destruct s; try (cbn [rd_ctrl ctrl_subtype ctrl_flags enc_ctrl]; split; [reflexivity|]; split; [reflexivity|]; split; [exists []; now rewrite app_nil_r|]; split; [reflexivity|];
    intros C F; split; [exact F|]; split; [exact C|]; split; [discriminate|]; split; [discriminate|]; split; [discriminate|exact W]).
  - destruct (le_lt_dec 14 (length bs)) as [L|L].
    + destruct (R2 14) as (d & ra & r & Hd & Ha & E & Wr & Lr); [lia|exact L|].
      destruct (split_bytes 6 r Wr) as (ta & r2 & Lt & Wt & E2 & W2 & L2); [lia|]. subst r.
      unfold rd_ctrl. pose proof (At_start bs) as A. rewrite E in A at 2. destruct Ha as [La Wa]. unfold u16 in Hd. rstep A. rstep A. rstep A.
      split; [reflexivity|]. split; [reflexivity|]. split; [exists r2; cbn [enc_ctrl]; now rewrite <- !app_assoc|]. split; [cbn [enc_ctrl]; lens; lia|].
      intros _ F. split; [exact F|]. split; [exact Hd|]. split; split; assumption.
    + apply Fin. cbn [rd_ctrl]. apply (Sh _ (rd_le 2) _ 0 14 2); [apply rd_le_NP|exact S2|apply rd_le_IB|intros d B1|exact L].
      apply (Sh _ (rd_bytes 6) _ _ 14 6); [apply rd_bytes_NP|exact S6|apply rd_bytes_IB|intros ra B2|exact L].
      apply (Sh _ (rd_bytes 6) _ _ 14 6); [apply rd_bytes_NP|exact S6|apply rd_bytes_IB|intros ta B3|exact L]. lia.
  - destruct (le_lt_dec 8 (length bs)) as [L|L].
    + destruct (R2 8) as (d & ra & r & Hd & Ha & E & Wr & Lr); [lia|exact L|].
      unfold rd_ctrl. pose proof (At_start bs) as A. rewrite E in A at 2. destruct Ha as [La Wa]. unfold u16 in Hd. rstep A. rstep A.
      split; [reflexivity|]. split; [reflexivity|]. split; [exists r; cbn [enc_ctrl]; now rewrite <- !app_assoc|]. split; [cbn [enc_ctrl]; lens; lia|].
      intros _ F. split; [exact F|]. split; [exact Hd|]. split; assumption.
    + apply Fin. cbn [rd_ctrl]. apply (Sh _ (rd_le 2) _ 0 8 2); [apply rd_le_NP|exact S2|apply rd_le_IB|intros d B1|exact L].
      apply (Sh _ (rd_bytes 6) _ _ 8 6); [apply rd_bytes_NP|exact S6|apply rd_bytes_IB|intros ra B2|exact L]. lia.
  - destruct (le_lt_dec 8 (length bs)) as [L|L].
    + destruct (R2 8) as (d & ra & r & Hd & Ha & E & Wr & Lr); [lia|exact L|].
      unfold rd_ctrl. pose proof (At_start bs) as A. rewrite E in A at 2. destruct Ha as [La Wa]. unfold u16 in Hd. rstep A. rstep A.
      split; [reflexivity|]. split; [reflexivity|]. split; [exists r; cbn [enc_ctrl]; now rewrite <- !app_assoc|]. split; [cbn [enc_ctrl]; lens; lia|].
      intros _ F. split; [exact F|]. split; [exact Hd|]. split; assumption.
    + apply Fin. cbn [rd_ctrl]. apply (Sh _ (rd_le 2) _ 0 8 2); [apply rd_le_NP|exact S2|apply rd_le_IB|intros d B1|exact L].
      apply (Sh _ (rd_bytes 6) _ _ 8 6); [apply rd_bytes_NP|exact S6|apply rd_bytes_IB|intros ra B2|exact L]. lia.
Qed.
(** the receiver address is at its place in every control frame that is long enough *)
Lemma ctrl_addresses c : ok_ctrl c ->
  (8 <= length (enc_ctrl c) -> field_at 6 2 (enc_ctrl c) = Some (ctrl_receiver_address c)) /\
  (length (enc_ctrl c) < 8 -> ctrl_receiver_address c = repeat 0%N 6) /\
  (ctrl_transmitter_address c <> None -> ctrl_transmitter_address c = field_at 6 8 (enc_ctrl c)) /\
  (ctrl_transmitter_address c <> None <-> ctrl_subtype c = Ct_RTS).
Proof.
  intros H.
  enough (X : (8 <= length (enc_ctrl c) -> field_at 6 2 (enc_ctrl c) = Some (ctrl_receiver_address c)) /\
    (length (enc_ctrl c) < 8 -> ctrl_receiver_address c = repeat 0%N 6) /\
    (ctrl_transmitter_address c <> None -> ctrl_transmitter_address c = field_at 6 8 (enc_ctrl c))).
  { destruct X as (X1 & X2 & X3). repeat (split; [assumption|]).
    destruct H as [_ H]. destruct c; cbn in *; split; try congruence; try discriminate. tauto. }
  assert (F1 : forall d a r, length a = 6 -> field_at 6 2 (le_bytes 2 d ++ a ++ r) = Some a).
  { intros d a r La. unfold field_at. lens. rewrite (proj2 (Nat.leb_le _ _)) by lia. rewrite skipn_app_exact by reflexivity. now rewrite firstn_app_exact. }
  assert (F2 : forall d a b, length a = 6 -> length b = 6 -> field_at 6 8 (le_bytes 2 d ++ a ++ b) = Some b).
  { intros d a b La Lb. unfold field_at. lens. rewrite (proj2 (Nat.leb_le _ _)) by lia. rewrite app_assoc. rewrite skipn_app_exact by (lens; lia). now rewrite <- Lb, firstn_all. }
  destruct H as [_ H]. destruct c as [f d ra ta|f d ra|f d ra|s f body]; cbn [enc_ctrl ctrl_receiver_address ctrl_transmitter_address] in *.
  - destruct H as (_ & [La _] & [Lt _]). split; [now rewrite F1|]. split; [lens; lia|]. now rewrite F2.
  - destruct H as (_ & [La _]). split; [intros _; pose proof (F1 d ra [] La) as X; now rewrite app_nil_r in X|]. split; [lens; lia|]. congruence.
  - destruct H as (_ & [La _]). split; [intros _; pose proof (F1 d ra [] La) as X; now rewrite app_nil_r in X|]. split; [lens; lia|]. congruence.
  - split; [|split; [|congruence]]; intros L.
    + pose proof (pread_field 6 2 body) as P. unfold field_at in *. rewrite (proj2 (Nat.leb_le _ _)) in * by lia.
      destruct (pread (rd_bytes 6) body 2); cbn [res_ok] in P; specialize (P ltac:(lia)); congruence.
    + pose proof (pread_field 6 2 body) as P. unfold field_at in *. rewrite (proj2 (Nat.leb_gt _ _)) in * by lia.
      destruct (pread (rd_bytes 6) body 2); cbn [res_ok] in P; specialize (P ltac:(lia)); congruence.
Qed.
End Facts.
