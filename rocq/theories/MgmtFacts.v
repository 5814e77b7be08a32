(** Proofs about management frames: reading and writing. *)
From Verif Require Import Base BaseFacts Bits Layouts BitsFacts Enums EnumsFacts Common SpecBase SpecCommon CommonFacts Crc CrcFacts
  Elements SpecElements ElementsFacts ElementTypes SpecElementTypes ElementTypesFacts StepsFacts Mgmt SpecMgmt.

Local Ltac lens := rewrite ?app_length, ?le_bytes_length, ?be_bytes_length, ?ne_bytes_length; cbn [length].

Lemma canonical_mgmt s n : mgmt_subtype_into_bits s = n -> (n < 16)%N -> mgmt_subtype_from_bits n = s ->
  canonical_frame_type (FT_Management s).
Proof. intros <- A B. now split. Qed.
(** the two bytes of a frame control field *)
Lemma fcf_bytes t f : canonical_frame_type t -> (f < 256)%N ->
  le_bytes 2 (fcf_make t f) = enc_fcf (fst (spec_type_of t)) (snd (spec_type_of t)) f.
Proof.
  intros C Hf. destruct (fcf_make_read t f C Hf) as (B & V & T & F).
  destruct (fcf_fields (fcf_make t f)) as (EV & EF & ET). rewrite V in EV. rewrite F in EF. rewrite T in ET.
  rewrite ET. cbn [fst snd]. unfold spec_version, spec_flags, spec_type, spec_subtype in *.
  clear - B EV EF. set (x := fcf_make t f) in *. clearbody x. unfold enc_fcf. cbn [le_bytes].
  f_equal; [lia|]. f_equal. lia.
Qed.
(** what the readers see of a frame control field *)
Lemma fcf_of_bytes b0 b1 : (b0 < 256)%N -> (b1 < 256)%N ->
  fcf_flags (b0 + 256 * b1) = b1 /\ spec_type_of (fcf_frame_type (b0 + 256 * b1)) = ((b0 / 4) mod 4, (b0 / 16) mod 16)%N.
Proof.
  intros H0 H1. destruct (fcf_fields (b0 + 256 * b1)) as (_ & EF & ET). rewrite EF, ET.
  unfold spec_flags, spec_type, spec_subtype. split; [lia|]. f_equal; lia.
Qed.

Section Facts.
Context {cfg : Cfg}.

(** ** Frame check sequences *)
Lemma with_fcs_W w p fcs : Writes w p ->
  Writes (fun buf => '(buf, off) <- w buf ;; if fcs : bool then attach_fcs buf off else Ok (buf, off)) (enc_frame fcs p).
Proof.
  intros W. split; intros buf.
  - destruct (writes_any _ _ W buf) as [[L E]|[e E]]; rewrite E; cbn [rbind]; [|eauto].
    destruct fcs; [|left; auto]. cbn [enc_frame]. destruct (attach_fcs_any p buf L) as [A B].
    destruct (le_lt_dec (length p + 4) (length buf)) as [K|K]; [left|right; auto].
    rewrite app_length, le_bytes_length. split; [exact K|]. now apply A.
  - intros L. destruct fcs; cbn [enc_frame] in *; [|rewrite (writes_ok _ _ W) by exact L; reflexivity].
    rewrite app_length, le_bytes_length in *. pose proof slack_le.
    rewrite (writes_ok _ _ W) by lia. cbn [rbind]. apply attach_fcs_any; lia.
Qed.
Lemma with_fcs_T w p fcs : Writes w p -> (fcs = true \/ WritesT w p) ->
  WritesT (fun buf => '(buf, off) <- w buf ;; if fcs : bool then attach_fcs buf off else Ok (buf, off)) (enc_frame fcs p).
Proof.
  intros W T. split; [now apply with_fcs_W|]. intros buf L. destruct fcs; cbn [enc_frame] in *.
  - rewrite app_length, le_bytes_length in *. pose proof slack_le.
    rewrite (writes_ok _ _ W) by lia. cbn [rbind]. apply attach_fcs_any; lia.
  - destruct T as [T|[_ T]]; [discriminate|]. now rewrite T by exact L.
Qed.
Lemma strip_frame fcs p : wf_bytes p ->
  (if fcs : bool then strip_and_validate_fcs (enc_frame fcs p) else Ok (enc_frame fcs p)) = Ok p.
Proof. intros W. destruct fcs; [now apply strip_fcs_ok|reflexivity]. Qed.
Lemma enc_frame_length fcs p : length (enc_frame fcs p) = length p + if fcs then 4 else 0.
Proof. destruct fcs; cbn [enc_frame]; rewrite ?app_length, ?le_bytes_length; lia. Qed.
Lemma strip_fcs_le bs body : strip_and_validate_fcs bs = Ok body -> length body <= length bs.
Proof.
  unfold strip_and_validate_fcs, usub. destruct (_ <=? _); cbn [rbind]; [|discriminate].
  destruct (pread _ _ _); cbn [rbind]; [|discriminate|discriminate]. destruct (_ =? _)%N; [|discriminate].
  intros [= <-]. rewrite firstn_length. lia.
Qed.

(** ** Header *)
Lemma wf_mgmt_header h : ok_mgmt_header h -> wf_bytes (enc_mgmt_header h).
Proof.
  intros (_ & _ & [_ A] & [_ B] & [_ C] & _ & D). unfold enc_mgmt_header.
  rewrite !wf_bytes_app. repeat split; auto using le_bytes_wf.
  destruct (mh_ht h); [tauto|constructor].
Qed.
Lemma mgmt_header_length h : ok_mgmt_header h -> length (enc_mgmt_header h) + 2 = mh_length h.
Proof.
  intros (_ & _ & [A _] & [B _] & [C _] & _ & D). unfold enc_mgmt_header, mh_length.
  lens. rewrite A, B, C. destruct (mh_ht h) as [ht|]; cbn [length]; lia.
Qed.
Lemma enc_mgmt_header_ne h : enc_mgmt_header h <> [].
Proof. unfold enc_mgmt_header. cbn [le_bytes app]. discriminate. Qed.
Lemma wr_mgmt_header_W h : ok_mgmt_header h -> Writes (wr_mgmt_header h) (enc_mgmt_header h).
Proof.
  intros (_ & _ & _ & _ & _ & _ & D). unfold wr_mgmt_header, enc_mgmt_header.
  destruct (mh_ht h) as [ht|]; cbn [app].
  - eapply Writes_eq; [apply wseq_W; do 6 (constructor; [apply wr_bytes_W|]); constructor|].
    cbn [concat]. now rewrite app_nil_r.
  - eapply Writes_eq; [apply wseq_W; do 5 (constructor; [apply wr_bytes_W|]); constructor|].
    cbn [concat]. reflexivity.
Qed.
Lemma rd_mgmt_header_R h : ok_mgmt_header h -> Reads (rd_mgmt_header (mh_flags h)) (enc_mgmt_header h) h.
Proof.
  intros (Hf & Hd & [La _] & [Lb _] & [Lc _] & Hs & D) rest. unfold u8, u16, rd_mgmt_header, enc_mgmt_header in *.
  assert (O : order (mh_flags h) = N.testbit (mh_flags h) 7) by apply flag_bits.
  destruct h as [f d a b c s ht]. cbn [mh_flags mh_duration mh_ra mh_ta mh_bssid mh_seq mh_ht] in *.
  match goal with |- context [gread _ ?x 0] => pose proof (At_start x) as A end.
  rewrite <- !app_assoc in *. rstep A. rstep A. rstep A. rstep A. rstep A. rewrite O.
  destruct ht as [ht|].
  - destruct D as (D & Lh & _). rewrite D. rstep A. do 2 f_equal; lens; lia.
  - rewrite D. do 2 f_equal; lens; lia.
Qed.
Lemma rd_mgmt_header_NP f : NoPanic (rd_mgmt_header f).
Proof. intros from. unfold rd_mgmt_header. destruct (order f); np. Qed.
Lemma rd_mgmt_header_IB f : InBounds (rd_mgmt_header f).
Proof.
  intros from x n E. unfold rd_mgmt_header in E. destruct (order f); rinv E; injection E as _ <-; lia.
Qed.
(** taking a header apart *)
Lemma rd_mgmt_header_inv f from h n : wf_bytes from -> (f < 256)%N -> rd_mgmt_header f from = Ok (h, n) ->
  ok_mgmt_header h /\ mh_flags h = f /\ n = length (enc_mgmt_header h) /\ firstn n from = enc_mgmt_header h.
Proof.
  intros W Hf E.
  assert (O : order f = N.testbit f 7) by apply flag_bits.
  assert (L : (if order f then 26 else 22) <= length from).
  { revert E. unfold rd_mgmt_header. destruct (order f); intros E; rinv E; injection E as _ <-; lia. }
  destruct (split_le 2 from W) as (d & r1 & Hd & -> & W1 & L1); [destruct (order f); lia|].
  rewrite app_length, le_bytes_length in L.
  destruct (split_bytes 6 r1 W1) as (a & r2 & La & Wa & -> & W2 & L2); [destruct (order f); lia|].
  rewrite app_length in L.
  destruct (split_bytes 6 r2 W2) as (b & r3 & Lb & Wb & -> & W3 & L3); [destruct (order f); lia|].
  rewrite app_length in L.
  destruct (split_bytes 6 r3 W3) as (c & r4 & Lc & Wc & -> & W4 & L4); [destruct (order f); lia|].
  rewrite app_length in L.
  destruct (split_le 2 r4 W4) as (s & r5 & Hs & -> & W5 & L5); [destruct (order f); lia|].
  rewrite app_length, le_bytes_length in L.
  assert (X : exists h', ok_mgmt_header h' /\ mh_flags h' = f /\ exists rest,
     le_bytes 2 d ++ a ++ b ++ c ++ le_bytes 2 s ++ r5 = enc_mgmt_header h' ++ rest).
  { destruct (order f) eqn:Of.
    - destruct (split_bytes 4 r5 W5) as (ht & r6 & Lh & Wh & -> & W6 & L6); [lia|].
      exists (mkMH f d a b c s (Some ht)). unfold ok_mgmt_header, enc_mgmt_header, address, u8, u16; cbn [mh_flags mh_duration mh_ra mh_ta mh_bssid mh_seq mh_ht].
      split; [repeat split; auto|]. split; [reflexivity|]. exists r6. now rewrite <- !app_assoc.
    - exists (mkMH f d a b c s None). unfold ok_mgmt_header, enc_mgmt_header, address, u8, u16; cbn [mh_flags mh_duration mh_ra mh_ta mh_bssid mh_seq mh_ht].
      split; [repeat split; auto|]. split; [reflexivity|]. exists r5. now rewrite <- !app_assoc. }
  destruct X as (h' & H' & F' & rest & X). rewrite X in *.
  rewrite <- F' in E. rewrite (rd_mgmt_header_R h' H' rest) in E. injection E as <- <-.
  repeat split; auto; try apply H'. now rewrite firstn_app_exact.
Qed.

(** ** Frames *)
Lemma enc_mgmt_length s h body : ok_mgmt_header h -> length (enc_mgmt s h body) = mh_length h + length body.
Proof.
  intros H. unfold enc_mgmt, enc_fcf. rewrite !app_length. cbn [length].
  pose proof (mgmt_header_length h H). lia.
Qed.
Lemma mgmt_round_trip {W R} (t : BodyType W R) subtype (ok : W -> Prop) fixed cont conv (empty_ok : Prop) :
  mgmt_subtype_into_bits (bt_subtype t) = subtype -> (subtype < 16)%N -> mgmt_subtype_from_bits subtype = bt_subtype t ->
  (forall w, ok w -> wf_bytes (fixed w)) ->
  (empty_ok -> forall w, fixed w <> []) ->
  (forall w es, ok w -> Writes (c_write (cont w)) es -> Writes (bt_write t w) (fixed w ++ es)) ->
  (forall w es, ok w -> WritesT (c_write (cont w)) es -> es <> [] -> WritesT (bt_write t w) (fixed w ++ es)) ->
  (forall w es, ok w -> wf_bytes es -> empty_ok \/ end_ok es ->
     exists n, bt_read t (fixed w ++ es) = Ok (conv w es, n)) ->
  MgmtRoundTrip t subtype ok fixed cont conv empty_ok.
Proof.
  intros ES HS FS WF NE WR WT RD h w es fcs Hh Hw We Wr frame.
  assert (C : canonical_frame_type (FT_Management (bt_subtype t))) by (eapply canonical_mgmt; eauto).
  pose proof Hh as (Hf & _). unfold u8 in Hf.
  assert (FB : le_bytes 2 (fcf_make (FT_Management (bt_subtype t)) (mh_flags h)) = enc_fcf 0 subtype (mh_flags h)).
  { rewrite (fcf_bytes _ _ C Hf). cbn [spec_type_of fst snd]. now rewrite ES. }
  set (mpdu := enc_mgmt subtype h (fixed w ++ es)) in *.
  assert (WM : Writes (wseq [wr_le 2 (fcf_make (FT_Management (bt_subtype t)) (mh_flags h)); wr_mgmt_header h; bt_write t w]) mpdu).
  { eapply Writes_eq; [apply wseq_W; constructor; [apply wr_bytes_W|constructor; [now apply wr_mgmt_header_W|constructor; [exact (WR w es Hw Wr)|constructor]]]|].
    cbn [concat]. rewrite app_nil_r, FB. reflexivity. }
  split; [|split].
  - now apply with_fcs_W.
  - intros K. apply with_fcs_T; [exact WM|]. destruct K as [K|[N T]]; [now left|right].
    unfold mpdu, enc_mgmt. rewrite <- FB, app_assoc.
    replace (le_bytes 2 (fcf_make (FT_Management (bt_subtype t)) (mh_flags h)) ++ enc_mgmt_header h)
      with (concat [le_bytes 2 (fcf_make (FT_Management (bt_subtype t)) (mh_flags h)); enc_mgmt_header h]).
    2:{ cbn [concat]. now rewrite app_nil_r. }
    apply (wseq_T [_; _] [_; _]).
    + constructor; [apply wr_bytes_W|constructor; [now apply wr_mgmt_header_W|constructor]].
    + now apply WT.
    + intros Z. apply app_eq_nil in Z. tauto.
  - intros K.
    assert (Wm : wf_bytes mpdu).
    { unfold mpdu, enc_mgmt. rewrite <- FB, !wf_bytes_app. auto using le_bytes_wf, wf_mgmt_header. }
    assert (NM : frame <> []).
    { intros Z. apply (f_equal (@length N)) in Z. unfold frame in Z. rewrite enc_frame_length in Z.
      unfold mpdu, enc_mgmt, enc_fcf in Z. cbn in Z. lia. }
    rewrite (pread0 _ _ NM). unfold rd_mgmt, frame. rewrite (strip_frame fcs mpdu Wm). cbn [rbind].
    assert (A : At mpdu 0 (le_bytes 2 (fcf_make (FT_Management (bt_subtype t)) (mh_flags h)) ++ enc_mgmt_header h ++ fixed w ++ es)).
    { rewrite FB. apply At_start. }
    destruct (fcf_make_read _ _ C Hf) as (B & _ & T & F).
    rstep A. rewrite T, F.
    rstep_R A (rd_mgmt_header (mh_flags h)) mpdu (0 + 2) (enc_mgmt_header h) (fixed w ++ es) (rd_mgmt_header_R h Hh).
    assert (N2 : end_ok (fixed w ++ es)).
    { destruct K as [K|K]; [right|].
      - intros Z. apply app_eq_nil in Z as [Z _]. now apply (NE K w).
      - destruct K as [K|K]; [now left|right]. intros Z. apply app_eq_nil in Z. tauto. }
    rewrite (gread_at _ _ _ _ A N2). destruct (RD w es Hw We K) as [n E]. rewrite E. reflexivity.
Qed.
Lemma mgmt_measure_spec {W R} (t : BodyType W R) subtype (ok : W -> Prop) fixed cont missing :
  (forall w, ok w -> bt_measure t w + missing = length (fixed w) + c_measure (cont w)) ->
  MgmtMeasure t subtype ok fixed cont missing.
Proof.
  intros M h w es fcs Hh Hw E. rewrite enc_frame_length, enc_mgmt_length by exact Hh.
  unfold mgmt_measure. rewrite app_length. specialize (M w Hw). destruct fcs; lia.
Qed.

(** reading, seen from the bytes *)
Lemma rd_mgmt_inv {W R} (t : BodyType W R) fcs bs h r n : wf_bytes bs ->
  rd_mgmt t fcs bs = Ok ((h, r), n) ->
  exists b0 body m, ((b0 / 4) mod 4 = 0)%N /\ (b0 < 256)%N /\ wf_bytes body /\
    ok_mgmt_header h /\ bs = enc_frame fcs ([b0; mh_flags h] ++ enc_mgmt_header h ++ body) /\
    bt_read t body = Ok (r, m) /\ n = 2 + length (enc_mgmt_header h) + m.
Proof.
  intros W0 E. unfold rd_mgmt in E.
  assert (X : exists p, (if fcs then strip_and_validate_fcs bs else Ok bs) = Ok p /\ bs = enc_frame fcs p /\ wf_bytes p).
  { destruct fcs.
    - destruct (strip_and_validate_fcs bs) as [p| |] eqn:S; try discriminate.
      exists p. split; [reflexivity|]. apply (proj1 (strip_fcs_spec bs W0)) in S. split; [exact S|].
      rewrite S in W0. now apply wf_bytes_app in W0.
    - exists bs. auto. }
  destruct X as (p & X & -> & Wp). rewrite X in E. cbn [rbind] in E.
  assert (L : 2 <= length p).
  { destruct (gread (rd_le 2) p 0) as [[? ?]| |] eqn:G; try discriminate.
    apply gread_inv in G as (_ & k & G & _). unfold rd_le in G.
    destruct (Nat.ltb_spec (length (skipn 0 p)) 2); [discriminate|exact H]. }
  destruct p as [|b0 [|b1 p]]; try (cbn in L; lia).
  apply wf_bytes_cons in Wp as [H0 Wp]. apply wf_bytes_cons in Wp as [H1 Wp].
  assert (A : At (b0 :: b1 :: p) 0 (le_bytes 2 (b0 + 256 * b1) ++ p)).
  { replace (le_bytes 2 (b0 + 256 * b1)) with [b0; b1]; [apply At_start|]. cbn [le_bytes]. f_equal; [lia|]. f_equal. lia. }
  assert (B : (b0 + 256 * b1 < 65536)%N) by lia.
  rewrite (gread_step (rd_le 2) (b0 :: b1 :: p) 0 _ _ p A (rd_le_R 2 (b0 + 256 * b1) B)) in E by discriminate.
  cbn [rbind] in E. apply At_step in A.
  destruct (fcf_of_bytes b0 b1 H0 H1) as [F T]. rewrite F in E.
  destruct (fcf_frame_type (b0 + 256 * b1)) as [s|s|s|s]; try discriminate.
  cbn [spec_type_of] in T. injection T as T _.
  destruct (gread (rd_mgmt_header b1) (b0 :: b1 :: p) _) as [[h' o]| |] eqn:G; try discriminate. cbn [rbind] in E.
  apply gread_inv in G as (_ & k & G & ->). destruct A as [A L2]. rewrite A in G.
  destruct (rd_mgmt_header_inv b1 p h' k Wp H1 G) as (Hh & Ff & -> & Q).
  destruct (gread (bt_read t) (b0 :: b1 :: p) _) as [[r' o]| |] eqn:G2; try discriminate. cbn [rbind] in E.
  apply gread_inv in G2 as (_ & m & G2 & ->). injection E as <- <- <-.
  rewrite <- skipn_skipn_add, A in G2.
  exists b0, (skipn (length (enc_mgmt_header h')) p), m.
  split; [now symmetry|]. split; [exact H0|]. split; [now apply wf_skipn|]. split; [exact Hh|].
  split; [|split; [exact G2|reflexivity]].
  f_equal. rewrite Ff. cbn [app]. rewrite <- Q at 1. now rewrite firstn_skipn.
Qed.
Lemma mgmt_lossless {W R} (t : BodyType W R) (ok : R -> Prop) fixed rest (canon : bytes -> Prop) :
  (forall body r n, wf_bytes body -> bt_read t body = Ok (r, n) -> canon body -> ok r /\ body = fixed r ++ rest r) ->
  MgmtLossless t ok fixed rest canon.
Proof.
  intros RI fcs bs h r n Wb E. destruct (rd_mgmt_inv t fcs bs h r n Wb E) as (b0 & body & m & H1 & H2 & H3 & H4 & H5 & H6 & _).
  split; [exact H4|]. exists b0, body. split; [exact H1|]. split; [exact H2|]. split; [exact H5|]. intros C. exact (RI body r m H3 H6 C).
Qed.

(** ** Panics and bounds *)
Lemma rd_mgmt_no_panic {W R} (t : BodyType W R) : NoPanic (bt_read t) -> NoPanic (rd_mgmt t false).
Proof.
  intros NP from. unfold rd_mgmt. cbn [rbind]. np. destruct (fcf_frame_type _); try discriminate.
  assert (NoPanic (rd_mgmt_header (fcf_flags n))) by apply rd_mgmt_header_NP. np.
Qed.
Lemma rd_mgmt_fcs_panic {W R} (t : BodyType W R) : NoPanic (bt_read t) -> forall bs, wf_bytes bs ->
  (rd_mgmt t true bs = Panic <-> length bs < 4).
Proof.
  intros NP bs Wb. pose proof (strip_fcs_spec bs Wb) as [_ S].
  destruct (strip_and_validate_fcs bs) as [p| |] eqn:E.
  - assert (N : rd_mgmt t true bs <> Panic).
    { pose proof (rd_mgmt_no_panic t NP p) as Q. unfold rd_mgmt in *. cbn [rbind] in *. rewrite E. exact Q. }
    split; [congruence|]. intros L. apply S in L. discriminate.
  - unfold rd_mgmt. rewrite E. cbn [rbind]. split; [discriminate|]. intros L. apply S in L. discriminate.
  - unfold rd_mgmt. rewrite E. cbn [rbind]. split; [intros _; now apply S|reflexivity].
Qed.
Lemma rd_mgmt_in_bounds {W R} (t : BodyType W R) fcs : InBounds (bt_read t) -> InBounds (rd_mgmt t fcs).
Proof.
  intros IB from x n E. unfold rd_mgmt in E.
  assert (X : exists p, (if fcs then strip_and_validate_fcs from else Ok from) = Ok p /\ length p <= length from).
  { destruct fcs; [|eauto]. destruct (strip_and_validate_fcs from) as [p| |] eqn:S; try discriminate.
    exists p. split; [reflexivity|]. now apply strip_fcs_le. }
  destruct X as (p & X & L). rewrite X in E. cbn [rbind] in E.
  destruct (gread (rd_le 2) p 0) as [[f o]| |]; try discriminate. cbn [rbind] in E.
  destruct (fcf_frame_type f); try discriminate.
  destruct (gread (rd_mgmt_header _) p o) as [[h o2]| |]; try discriminate. cbn [rbind] in E.
  destruct (gread (bt_read t) p o2) as [[b o3]| |] eqn:G; try discriminate. cbn [rbind] in E.
  injection E as _ <-. apply gread_bounds in G; [lia|exact IB].
Qed.
(** a frame of another type is refused *)
Lemma rd_mgmt_type {W R} (t : BodyType W R) fcs bs h r n b0 rest : wf_bytes bs ->
  rd_mgmt t fcs bs = Ok ((h, r), n) -> bs = b0 :: rest -> ((b0 / 4) mod 4 = 0)%N.
Proof.
  intros Wb E ->. destruct (rd_mgmt_inv t fcs _ h r n Wb E) as (c0 & body & m & H1 & _ & _ & _ & H5 & _).
  destruct fcs; cbn [enc_frame app] in H5; injection H5 as -> _; exact H1.
Qed.
End Facts.
