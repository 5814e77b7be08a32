(** Proofs about data frames. *)
From Verif Require Import Base BaseFacts Bits Layouts BitsFacts Enums EnumsFacts Common SpecBase SpecCommon CommonFacts Crc CrcFacts
  Elements ElementsFacts ElementTypes SpecElementTypes ElementTypesFacts StepsFacts Mgmt SpecMgmt MgmtFacts
  CryptoHeader Amsdu Data SpecData.

Local Ltac lens := rewrite ?app_length, ?le_bytes_length, ?be_bytes_length, ?ne_bytes_length; cbn [length].

(** ** Subtypes *)
Lemma data_subtype_std s : canonical_frame_type (FT_Data s) ->
  data_is_qos s = std_is_qos (data_subtype_into_bits s) /\ data_has_payload s = std_has_payload (data_subtype_into_bits s).
Proof.
  intros [H E]. unfold std_is_qos, std_has_payload. set (n := data_subtype_into_bits s) in *. rewrite <- E. clearbody n. clear E s.
  destruct (N.eqb_spec n 13) as [->|K]; [split; reflexivity|].
  destruct (data_subtype_bits n H K) as (A & B & _). rewrite A, B. now rewrite andb_true_r.
Qed.
Lemma is_amsdu_std h : ok_data_header h -> is_amsdu h = std_amsdu h.
Proof.
  intros (C & _ & _ & _ & _ & _ & _ & _ & Q & _). unfold is_amsdu, std_amsdu, subtype_number.
  destruct (data_subtype_std _ C) as [_ ->]. destruct (dh_qos h) as [[|q qs]|]; auto.
Qed.

Section Facts.
Context {cfg : Cfg}.

Lemma data_fcf_ok h : ok_data_header h -> exists x, @data_fcf cfg serr h = Ok x /\ (x < 65536)%N /\
  le_bytes 2 x = enc_fcf 2 (subtype_number h) (dh_flags h) /\
  fcf_frame_type x = FT_Data (dh_subtype h) /\ fcf_flags x = dh_flags h.
Proof.
  intros (C & F & _). exists (fcf_make (FT_Data (dh_subtype h)) (dh_flags h)).
  destruct (fcf_make_read _ _ C F) as (B & _ & T & FF).
  split; [|split; [exact B|split; [now rewrite (fcf_bytes _ _ C F)|auto]]].
  unfold data_fcf, lwith. rewrite fcf_pos_type.
  assert (X : (N.ones 6 <? frame_type_into_bits (FT_Data (dh_subtype h)))%N = false).
  { destruct C as [C _]. cbn [frame_type_into_bits]. unfold shl2_u8.
    revert C. generalize (data_subtype_into_bits (dh_subtype h)). intros n C.
    assert (S : forallb (fun n => negb (N.ones 6 <? N.lor 2 (N.land (N.shiftl n 2) 255))%N) (Nseq 16) = true) by reflexivity.
    pose proof (sweepN 16 _ S n C) as E. cbn beta in E. now apply negb_true_iff in E. }
  rewrite X, andb_false_r. cbn [rbind]. unfold fcf_make, fcf_with_frame_type, lset. now rewrite fcf_pos_type.
Qed.

(** ** Writing *)
Lemma Forall2_weaken {A B} (P Q : A -> B -> Prop) l m : (forall x y, P x y -> Q x y) -> Forall2 P l m -> Forall2 Q l m.
Proof. intros H F. induction F; constructor; auto. Qed.
Lemma wseq_allT ws bss : Forall2 (fun w b => WritesT w b /\ b <> []) ws bss -> ws <> [] -> WritesT (wseq ws) (concat bss).
Proof.
  intros F N. destruct (exists_last N) as (ws0 & w & ->).
  apply Forall2_app_inv_l in F as (bs0 & bs1 & F0 & F1 & ->).
  inversion F1 as [|? b ? ? [T K] Q]; subst. inversion Q; subst. rewrite concat_app. cbn [concat]. rewrite app_nil_r.
  apply wseq_T; auto. eapply Forall2_weaken; [|exact F0]. cbn. intros ? ? [X _]. apply X.
Qed.
Definition opt_list (o : option bytes) : list bytes := match o with Some b => [b] | None => [] end.
Lemma opt_bytes_T p n o : opt_field p (S n) o -> Forall2 (fun w b => WritesT w b /\ b <> []) (opt_bytes o) (opt_list o).
Proof.
  destruct o as [b|]; cbn; [|constructor]. intros (_ & L & _). constructor; [split; [apply wr_bytes_T|]|constructor].
  intros ->. discriminate.
Qed.
Lemma opt_list_concat o : concat (opt_list o) = enc_opt o.
Proof. destruct o; cbn; now rewrite ?app_nil_r. Qed.
Lemma addr_ne a : address a -> a <> [].
Proof. intros [L _] ->. discriminate. Qed.
Lemma wr_data_header_T h : ok_data_header h -> WritesT (wr_data_header h) (enc_data_header h).
Proof.
  intros (_ & _ & _ & X1 & X2 & X3 & _ & O4 & OQ & OH). unfold wr_data_header, enc_data_header.
  replace (le_bytes 2 (dh_duration h) ++ dh_a1 h ++ dh_a2 h ++ dh_a3 h ++ le_bytes 2 (dh_seq h) ++
    enc_opt (dh_a4 h) ++ enc_opt (dh_qos h) ++ enc_opt (dh_ht h))
    with (concat ([le_bytes 2 (dh_duration h); dh_a1 h; dh_a2 h; dh_a3 h; le_bytes 2 (dh_seq h)] ++
       opt_list (dh_a4 h) ++ opt_list (dh_qos h) ++ opt_list (dh_ht h))).
  2:{ rewrite !concat_app, !opt_list_concat. cbn [concat]. rewrite app_nil_r, <- !app_assoc. reflexivity. }
  apply wseq_allT; [|discriminate]. apply Forall2_app.
  - repeat (constructor; [split; [apply wr_bytes_T|]|]); try (apply addr_ne; assumption); try discriminate; constructor.
  - apply Forall2_app; [eapply opt_bytes_T; exact O4|]. apply Forall2_app; eapply opt_bytes_T; eassumption.
Qed.
Lemma enc_data_header_length h : ok_data_header h -> length (enc_data_header h) + 2 = dh_length h.
Proof.
  intros (_ & _ & _ & [X1 _] & [X2 _] & [X3 _] & _ & O4 & OQ & OH). unfold enc_data_header, dh_length. lens.
  rewrite X1, X2, X3.
  destruct (dh_a4 h) as [a4|], (dh_qos h) as [q|], (dh_ht h) as [ht|]; cbn [enc_opt opt_field length] in *; intuition lia.
Qed.
Lemma opt_field_wf p n o : opt_field p n o -> wf_bytes (enc_opt o).
Proof. destruct o; cbn; [tauto|constructor]. Qed.
Lemma enc_data_header_wf h : ok_data_header h -> wf_bytes (enc_data_header h).
Proof.
  intros (_ & _ & _ & [_ X1] & [_ X2] & [_ X3] & _ & O4 & OQ & OH). unfold enc_data_header.
  rewrite !wf_bytes_app. repeat split; eauto using le_bytes_wf, opt_field_wf.
Qed.
Lemma enc_data_wf h body : ok_data_header h -> wf_bytes body -> wf_bytes (enc_data h body).
Proof.
  intros H W. unfold enc_data. rewrite !wf_bytes_app. split; [|split; [now apply enc_data_header_wf|exact W]].
  destruct (data_fcf_ok h H) as (x & _ & _ & <- & _). apply le_bytes_wf.
Qed.
Lemma enc_data_length h body : ok_data_header h -> length (enc_data h body) = dh_length h + length body.
Proof. intros H. unfold enc_data, enc_fcf. lens. pose proof (enc_data_header_length h H). lia. Qed.

Lemma wr_data_eq h p fcs x buf : @data_fcf cfg serr h = Ok x ->
  wr_data (h, p) fcs buf = ('(buf, off) <- wseq ([wr_le 2 x; wr_data_header h] ++ match p with Some c => [c_write c] | None => [] end) buf ;;
    if fcs then attach_fcs buf off else Ok (buf, off)).
Proof.
  intros E. unfold wr_data. cbn [fst snd]. rewrite E. cbn [rbind]. unfold wseq. rewrite wseq_from_app.
  destruct (wseq_from [wr_le 2 x; wr_data_header h] buf 0) as [[b o]| |]; cbn [rbind]; auto.
  destruct p as [c|]; cbn [wseq_from rbind]; auto.
  destruct (gwrite (c_write c) b o) as [[b' o']| |]; reflexivity.
Qed.
Lemma wr_data_any_W h p body fcs : ok_data_header h -> match p with Some c => Writes (c_write c) body | None => body = [] end ->
  Writes (wr_data (h, p) fcs) (enc_frame fcs (enc_data h body)) /\
  (fcs = true \/ (match p with Some c => body <> [] /\ WritesT (c_write c) body | None => True end) ->
   WritesT (wr_data (h, p) fcs) (enc_frame fcs (enc_data h body))).
Proof.
  intros H P. destruct (data_fcf_ok h H) as (x & E & B & FB & _).
  set (ws := [wr_le 2 x; wr_data_header h] ++ match p with Some c => [c_write c] | None => [] end).
  assert (EQ : forall buf, wr_data (h, p) fcs buf = ('(buf, off) <- wseq ws buf ;; if fcs then attach_fcs buf off else Ok (buf, off)))
    by (intros buf; now apply wr_data_eq).
  pose proof (wr_data_header_T h H) as WH.
  assert (HN : enc_data_header h <> []) by (unfold enc_data_header; cbn [le_bytes app]; discriminate).
  assert (W : Writes (wseq ws) (enc_data h body)).
  { unfold enc_data. rewrite <- FB. destruct p as [c|]; cbn [app ws].
    - eapply Writes_eq; [apply wseq_W; constructor; [apply wr_bytes_W|constructor; [apply WH|constructor; [exact P|constructor]]]|].
      cbn [concat]. now rewrite app_nil_r.
    - subst body. eapply Writes_eq; [apply wseq_W; constructor; [apply wr_bytes_W|constructor; [apply WH|constructor]]|].
      reflexivity. }
  split.
  - eapply Writes_ext; [exact EQ|]. now apply with_fcs_W.
  - intros T. assert (X : WritesT (fun buf => '(buf, off) <- wseq ws buf ;; if fcs then attach_fcs buf off else Ok (buf, off)) (enc_frame fcs (enc_data h body))).
    { apply with_fcs_T; [exact W|]. destruct T as [T|T]; [now left|right]. unfold enc_data. rewrite <- FB. destruct p as [c|]; cbn [app ws].
      - destruct T as [T1 T2].
        replace (le_bytes 2 x ++ enc_data_header h ++ body) with (concat [le_bytes 2 x; enc_data_header h; body]) by (cbn [concat]; now rewrite app_nil_r).
        apply wseq_allT; [|discriminate]. constructor; [split; [apply wr_bytes_T|discriminate]|].
        constructor; [auto|]. constructor; [auto|constructor].
      - subst body.
        replace (le_bytes 2 x ++ enc_data_header h ++ []) with (concat [le_bytes 2 x; enc_data_header h]) by reflexivity.
        apply wseq_allT; [|discriminate]. constructor; [split; [apply wr_bytes_T|discriminate]|].
        constructor; [auto|constructor]. }
    destruct X as [X1 X2]. split; [eapply Writes_ext; [exact EQ|exact X1]|]. intros buf L. rewrite EQ. now apply X2.
Qed.
Lemma wr_data_W h p body fcs : ok_data_header h -> payload_ok h p body ->
  Writes (wr_data (h, p) fcs) (enc_frame fcs (enc_data h body)) /\
  (fcs = true \/ (match p with Some c => body <> [] /\ WritesT (c_write c) body | None => True end) ->
   WritesT (wr_data (h, p) fcs) (enc_frame fcs (enc_data h body))).
Proof. intros H P. apply wr_data_any_W; [exact H|]. destruct p; cbn [payload_ok] in P; tauto. Qed.

(** ** Reading *)
Lemma rd_opt_at p n from off o rest : opt_field p n o -> (0 < n) -> At from off (enc_opt o ++ rest) ->
  rd_opt p n from off = Ok (o, off + length (enc_opt o)) /\ At from (off + length (enc_opt o)) rest.
Proof.
  intros F N A. split; [|now apply At_step]. unfold rd_opt. destruct o as [b|]; cbn [opt_field enc_opt] in *.
  - destruct F as (-> & L & _). rewrite (gread_step _ _ _ b b rest A (rd_bytes_R b n (eq_sym L))); [reflexivity|].
    intros ->. cbn in L. lia.
  - rewrite F. cbn [length]. f_equal. f_equal. lia.
Qed.
Definition enc_data_header_ne (h : DataHeader) : bytes :=
  ne_bytes 2 (dh_duration h) ++ dh_a1 h ++ dh_a2 h ++ dh_a3 h ++ ne_bytes 2 (dh_seq h) ++
  enc_opt (dh_a4 h) ++ enc_opt (dh_qos h) ++ enc_opt (dh_ht h).
Lemma enc_ne_le h : native_le = true -> enc_data_header_ne h = enc_data_header h.
Proof. intros E. unfold enc_data_header_ne, enc_data_header, ne_bytes. now rewrite E. Qed.
Lemma rd_data_header_R h x : ok_data_header h -> (x < 65536)%N ->
  fcf_frame_type x = FT_Data (dh_subtype h) -> fcf_flags x = dh_flags h ->
  Reads rd_data_header (le_bytes 2 x ++ enc_data_header_ne h) h.
Proof.
  intros (C & F & D & [L1 _] & [L2 _] & [L3 _] & S & O4 & OQ & OH) B T FF rest. unfold rd_data_header, enc_data_header_ne.
  destruct (flag_bits (dh_flags h)) as (Ft & Ff & Fo & _). destruct (data_subtype_std _ C) as [EQ _].
  destruct h as [sub fl du a1 a2 a3 sq a4 qos ht]. unfold subtype_number, u8, u16 in *.
  cbn [dh_subtype dh_flags dh_duration dh_a1 dh_a2 dh_a3 dh_seq dh_a4 dh_qos dh_ht] in *.
  match goal with |- context [gread _ ?x 0] => pose proof (At_start x) as A end.
  rewrite <- !app_assoc in *. rstep A. rewrite T, FF, Ft, Ff, Fo, EQ. rstep A. rstep A. rstep A. rstep A. rstep A.
  match type of A with At ?from ?off _ =>
    destruct (rd_opt_at _ 6 from off a4 _ O4 ltac:(lia) A) as [R4 A4]; rewrite R4; cbn [rbind] end.
  match type of A4 with At ?from ?off _ =>
    destruct (rd_opt_at _ 2 from off qos _ OQ ltac:(lia) A4) as [R5 A5]; rewrite R5; cbn [rbind] end.
  match type of A5 with At ?from ?off _ =>
    destruct (rd_opt_at _ 4 from off ht _ OH ltac:(lia) A5) as [R6 A6]; rewrite R6; cbn [rbind] end.
  do 2 f_equal. lens. lia.
Qed.
Lemma rd_data_header_NP : NoPanic rd_data_header.
Proof.
  intros from. unfold rd_data_header, rd_opt.
  destruct (gread (rd_le 2) from 0) as [[f o]| |] eqn:G; cbn [rbind]; [|discriminate|apply gread_no_panic in G; [tauto|apply rd_le_NP]].
  destruct (fcf_frame_type f); try discriminate.
  destruct (to_ds _ && from_ds _), (data_is_qos _), (order _); cbn [rbind]; np; repeat (cbn [rbind]; np); discriminate.
Qed.
Lemma rd_data_header_IB : InBounds rd_data_header.
Proof.
  intros from x n E. unfold rd_data_header, rd_opt in E.
  destruct (gread (rd_le 2) from 0) as [[f o]| |] eqn:G; try discriminate. cbn [rbind] in E.
  apply gread_bounds in G; [|apply rd_le_IB].
  destruct (fcf_frame_type f); try discriminate.
  destruct (to_ds _ && from_ds _), (data_is_qos _), (order _); rinv E; cbn [rbind] in E; rinv E; cbn [rbind] in E; rinv E; cbn [rbind] in E; rinv E; injection E as _ <-; lia.
Qed.
End Facts.
