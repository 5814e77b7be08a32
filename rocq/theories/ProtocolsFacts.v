(** Proofs about users' own vendor specific action frames. *)
From Verif Require Import Base SpecBase BaseFacts Crc CrcFacts SpecFcs FcsFacts Enums EnumsFacts Common CommonFacts Elements SpecElements ElementsFacts ElementTypes SpecElementTypes ElementTypesFacts
  Mgmt SpecMgmt MgmtFacts MgmtFacts2 MgmtFacts3 MgmtFacts5 Data SpecData Generic SpecGeneric GenericFacts GenericFacts2 GenericFacts3 ViewFacts
  SpecDelivery DeliveryFacts SpecNoise NoiseFacts Control SpecReserve ReserveFacts SpecProtocols.

Section F.
Context {cfg : Cfg}.
Lemma own_match {A} (p : Protocol A) : length (pr_oui p) = 3 -> ActionMatch (own_body p) (127%N :: pr_oui p).
Proof.
  intros L. split; [reflexivity|]. intros b0 rest. destruct (vendor_oui_match b0 rest (pr_oui p) L) as (b & M & E).
  exists b. split; [apply rd_raw_action_cons|]. split; [exact M|]. split; [exact E|].
  intros ->. cbn [bt_read own_body]. pose proof (strip_header_spec (pr_oui p) [] (b0 :: rest) L) as S. cbn [app length] in S.
  destruct (strip_and_check_vendor_action_header (pr_oui p) (b0 :: rest) 0) as [o|e|] eqn:X; [| |destruct S].
  - destruct S as (_ & more & S). assert (false = true) by (apply E; exists more; exact S). discriminate.
  - cbn [rbind]. unfold strip_and_check_vendor_action_header in X. rewrite gread_u8_cons in X. cbn [rbind] in X.
    destruct (negb _); [left; congruence|]. unfold gread in X at 1.
    destruct (end_bad _ _); [right; right; cbn [rbind] in X; congruence|]. unfold rd_bytes in X.
    destruct (length (skipn 1 (b0 :: rest)) <? 3) eqn:LT; cbn [rbind] in X; [right; left; congruence|].
    destruct (negb _); [left; congruence|discriminate].
Qed.
Lemma own_matches {A} (p : Protocol A) g : length (pr_oui p) = 3 -> wf_bytes g -> 10 <= length g ->
  exists b, gf_matches (mgmt_kind (own_body p)) g = Ok b /\ (b = true <-> belongs p g).
Proof. intros L W Lg. apply action_matches_spec; [now apply own_match|exact W|exact Lg]. Qed.
Lemma belongs_one {A} (p q : Protocol A) g : length (pr_oui p) = 3 -> length (pr_oui q) = 3 -> belongs p g -> belongs q g -> pr_oui p = pr_oui q.
Proof.
  intros Lp Lq (_ & _ & m & E) (_ & _ & m' & E'). rewrite E in E'. cbn [app] in E'. injection E' as E'.
  apply (f_equal (firstn 3)) in E'. now rewrite !firstn_app_exact in E' by auto.
Qed.
Lemma own_dispatch {A} (ps : list (Protocol A)) (arms : list (Arm A)) g : different ps -> wf_bytes g -> 10 <= length g ->
  (forall p, In p ps -> belongs p g -> try_arms (map own_arm ps ++ arms) g = (x <- pread (rd_mgmt (own_body p) false) g 0 ;; Ok (pr_block p x))) /\
  ((forall p, In p ps -> ~ belongs p g) -> try_arms (map own_arm ps ++ arms) g = try_arms arms g).
Proof.
  intros [FA ND] W L. induction ps as [|q ps IH]; [split; [contradiction|reflexivity]|].
  cbn [map] in ND. apply NoDup_cons_iff in ND as [NI ND]. apply Forall_cons_iff in FA as [[Lq _] FA]. destruct (IH FA ND) as [IH1 IH2].
  destruct (own_matches q g Lq W L) as (b & M & E). cbn [map app try_arms]. change (arm_kind A (own_arm q)) with (mgmt_kind (own_body q)). rewrite M. cbn [rbind]. split.
  - intros p [<-|I] B.
    + apply E in B. subst b. reflexivity.
    + destruct b; [|now apply IH1]. exfalso. assert (Bq : belongs q g) by now apply E.
      rewrite Forall_forall in FA. assert (pr_oui q = pr_oui p) as Q by (apply (belongs_one q p g); auto; now apply FA).
      apply NI. rewrite Q. now apply in_map.
  - intros N. destruct b; [exfalso; apply (N q (or_introl eq_refl)); now apply E|]. apply IH2. intros p I. apply N. now right.
Qed.
Lemma own_write {A} (p : Protocol A) m buf : bt_write (own_body p) m buf = wseq ([wr_u8 127; wr_bytes (pr_oui p)] ++ [c_write (pr_payload p m)]) buf.
Proof. exact (vendor_write (mkVendor (pr_oui p) (pr_payload p m)) buf). Qed.
Lemma own_read {A} (p : Protocol A) es x k : length (pr_oui p) = 3 -> end_ok es -> pr_read p es = Ok (x, k) ->
  bt_read (own_body p) ((127%N :: pr_oui p) ++ es) = Ok (x, 4 + k).
Proof.
  intros L EO R. cbn [bt_read own_body]. pose proof (strip_header_spec (pr_oui p) [] ((127%N :: pr_oui p) ++ es) L) as S. cbn [app length] in S.
  cbn [app]. destruct (strip_and_check_vendor_action_header _ _ 0) as [o|e|]; [|elim (S es eq_refl)|destruct S].
  destruct S as [-> _]. cbn [rbind]. assert (P : At (127%N :: pr_oui p ++ es) (0 + 4) es).
  { change (127%N :: pr_oui p ++ es) with ((127%N :: pr_oui p) ++ es). apply At_app. cbn. lia. }
  rewrite (gread_at _ _ _ _ P EO), R. reflexivity.
Qed.
(** a message of a protocol is written and read *)
Lemma own_frame {A} (p : Protocol A) h m es x k fcs : length (pr_oui p) = 3 -> wf_bytes (pr_oui p) -> ok_mgmt_header h ->
  wf_bytes es -> Writes (c_write (pr_payload p m)) es -> end_ok es -> pr_read p es = Ok (x, k) ->
  let g := enc_mgmt 13 h ((127%N :: pr_oui p) ++ es) in
  Writes (wr_mgmt (own_body p) h m fcs) (enc_frame fcs g) /\ wf_bytes g /\ 10 <= length g /\ belongs p g /\ pread (rd_mgmt (own_body p) false) g 0 = Ok (h, x).
Proof.
  intros L Wo Hh We Wr EO R g.
  assert (Wf : wf_bytes (127%N :: pr_oui p)) by (constructor; [reflexivity|exact Wo]).
  assert (Wg : wf_bytes g) by (apply enc_mgmt_wf; [reflexivity|exact Hh|apply wf_bytes_app; auto]).
  assert (Lg : 10 <= length g) by (unfold g; rewrite enc_mgmt_length by exact Hh; unfold mh_length; destruct (mh_ht h); lia).
  (* the same bytes are written as by the library's own type *)
  destruct (vendor_rt h (mkVendor (pr_oui p) (pr_payload p m)) es fcs Hh (conj L Wo) We Wr) as (Ws & _ & _).
  split; [exact Ws|]. split; [exact Wg|]. split; [exact Lg|].
  split; [apply action_prefix; [discriminate|exact Hh|eauto]|].
  destruct (vendor_rt h (mkVendor (pr_oui p) (c_bytes es)) es false Hh (conj L Wo) We (wr_bytes_W es)) as (_ & _ & Rd).
  specialize (Rd (or_introl Logic.I)). change (enc_frame false _) with g in Rd.
  assert (NM : g <> []) by (intros Z; rewrite Z in Lg; cbn in Lg; lia).
  rewrite (pread0 _ _ NM) in Rd. rewrite (pread0 _ _ NM). unfold rd_mgmt in *. cbn [rbind] in *.
  destruct (gread (rd_le 2) g 0) as [[f o]| |]; try discriminate. cbn [rbind] in *.
  destruct (fcf_frame_type f); try discriminate.
  destruct (gread (rd_mgmt_header (fcf_flags f)) g o) as [[h' o']| |]; try discriminate. cbn [rbind] in *.
  destruct (gread (bt_read RawVendorSpecificAction) g o') as [[r o'']| |] eqn:G; try discriminate. cbn [rbind] in Rd.
  assert (h' = h /\ r = with_vendor (mkVendor (pr_oui p) (c_bytes es)) es) as [-> ->] by (split; congruence). clear Rd.
  unfold gread in G |- *. destruct (end_bad o' (length g)); [discriminate|]. cbn [bt_read RawVendorSpecificAction] in G.
  destruct (rd_vendor_action (skipn o' g)) as [[r n]| |] eqn:Q; try discriminate. cbn [rbind] in G.
  assert (r = with_vendor (mkVendor (pr_oui p) (c_bytes es)) es) as -> by congruence.
  apply rd_vendor_action_inv in Q as (_ & Q); [|now apply wf_skipn|exact Logic.I].
  unfold fixed_vendor in Q. cbn [with_vendor va_oui va_payload] in Q. rewrite Q.
  rewrite (own_read p es x k L EO R). reflexivity.
Qed.
Lemma said_frame {A} (ps : list (Protocol A)) f a : different ps -> said ps f a -> exists p h x g, In p ps /\ f = enc_frame true g /\ wf_bytes g /\ 10 <= length g /\
  belongs p g /\ pread (rd_mgmt (own_body p) false) g 0 = Ok (h, x) /\ a = pr_block p (h, x).
Proof.
  intros [FA _] [p h m es x k buf buf' n I Hh We Wr EO R Room E]. rewrite Forall_forall in FA. destruct (FA p I) as [L Wo].
  destruct (own_frame p h m es x k true L Wo Hh We Wr EO R) as (Ws & Wg & Lg & B & Rd).
  destruct (written_at _ _ _ Ws Room) as (b2 & n2 & E2 & F). rewrite E in E2. injection E2 as <- <-.
  exists p, h, x, (enc_mgmt 13 h ((127%N :: pr_oui p) ++ es)). auto 10.
Qed.
Lemma said_runs {A} (ps : list (Protocol A)) arms f a : different ps -> said ps f a -> match_frames f (Some true) (map own_arm ps ++ arms) = Ok a.
Proof.
  intros D S. destruct (said_frame ps f a D S) as (p & h & x & g & I & -> & Wg & Lg & B & Rd & ->).
  rewrite (match_enc true g) by assumption. destruct (own_dispatch ps arms g D Wg Lg) as [O _]. rewrite (O p I B), Rd. reflexivity.
Qed.
Lemma frame_inside g : wf_bytes g -> firstn (length (enc_frame true g) - 4) (enc_frame true g) = g.
Proof.
  intros W. rewrite enc_frame_length. replace (length g + 4 - 4) with (length g) by lia. unfold enc_frame. now apply firstn_app_exact.
Qed.
Lemma other_runs {A} (ps : list (Protocol A)) l f a : different ps -> typed_arms l -> sent l f a -> foreign ps f ->
  match_frames f (Some true) (map own_arm ps ++ map snd l) = Ok a.
Proof.
  intros D TA S F. pose proof (sent_runs l f a TA S) as M.
  assert (X : exists ra d, wrote ra d f).
  { destruct S; do 2 eexists; [eapply wrote_mgmt|eapply wrote_data]; eassumption. }
  destruct X as (ra & d & X). destruct (seen ra d f X) as (g & G & Ef & Wg & _ & _). unfold match_frames in *. rewrite G in *. cbn [rbind] in *.
  assert (Lg : 10 <= length g).
  { pose proof (strip_frame true g Wg) as SF. cbv iota in SF. unfold gf_new in G. rewrite Ef, SF in G. cbn [rbind] in G. destruct (Nat.ltb_spec (length g) 10); [discriminate|assumption]. }
  destruct (own_dispatch ps (map snd l) g D Wg Lg) as [_ O]. rewrite O; [exact M|].
  intros p I B. apply (F p I). subst f. now rewrite frame_inside.
Qed.
Lemma share A (ps : list (Protocol A)) l air due : different ps -> typed_arms l -> shared ps l air due -> station (map own_arm ps ++ map snd l) air = Ok due.
Proof.
  intros D TA S. induction S as [|f a air due S _ IH|f a b air due S Dm _ IH|f a air due S F _ IH|f a b air due S Dm _ IH]; cbn [station].
  - reflexivity.
  - rewrite (said_runs ps _ f a D S), IH. reflexivity.
  - pose proof (runs_valid _ _ _ (said_runs ps (map snd l) f a D S)) as V.
    destruct (refused f b Dm V) as (_ & _ & _ & M). destruct (M A (map own_arm ps ++ map snd l)) as [e ->]. exact IH.
  - rewrite (other_runs ps l f a D TA S F), IH. reflexivity.
  - pose proof (runs_valid _ _ _ (sent_runs l f a TA S)) as V.
    destruct (refused f b Dm V) as (_ & _ & _ & M). destruct (M A (map own_arm ps ++ map snd l)) as [e ->]. exact IH.
Qed.
(** any frame, with or without frame check sequence *)
Lemma own_dispatch_frame A (ps : list (Protocol A)) arms bs w g : different ps -> wf_bytes bs -> gf_new bs (match w with Some _ => true | None => false end) = Ok g ->
  (forall p, In p ps -> belongs p g -> match_frames bs w (map own_arm ps ++ arms) = (x <- pread (rd_mgmt (own_body p) false) g 0 ;; Ok (pr_block p x))) /\
  ((forall p, In p ps -> ~ belongs p g) -> match_frames bs w (map own_arm ps ++ arms) = match_frames bs w arms).
Proof.
  intros D W G. unfold match_frames. rewrite G. cbn [rbind].
  assert (X : wf_bytes g /\ 10 <= length g).
  { pose proof (gf_new_spec bs W) as [N1 N2]. destruct w.
    - rewrite G in N2. destruct N2 as [-> L]. split; [now apply wf_bytes_app in W|exact L].
    - rewrite G in N1. destruct (Nat.ltb_spec (length bs) 10); [discriminate|]. injection N1 as ->. auto. }
  now apply own_dispatch.
Qed.
End F.
