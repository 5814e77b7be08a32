(** Proofs about the byte order of the machine and the build profile. *)
From Verif Require Import Base BaseFacts Bits Layouts Enums EnumsFacts Common SpecBase SpecCommon Crc CrcFacts Elements ElementTypes Utf8 Tim Rsn Mgmt SpecElements SpecMgmt MgmtFacts4 Data Control Generic SpecGeneric
  CryptoHeader Amsdu Suites Eapol KeyMgmt KeyMgmtState Michael Accessors Text SpecPortable KeyMgmtFacts4.

(** ** Byte order *)
Lemma swapped_pair a b : (a < 256)%N -> (b < 256)%N -> swapped (le_val [a; b]) = be_val [a; b].
Proof.
  intros A B. unfold swapped, be_val. cbn [le_val rev app]. rewrite N.mul_0_r, !N.add_0_r.
  replace ((a + 256 * b) mod 256)%N with a by (rewrite (N.mul_comm 256), N.mod_add by lia; symmetry; now apply N.mod_small).
  replace ((a + 256 * b) / 256)%N with b by (rewrite (N.mul_comm 256), N.div_add by lia; rewrite N.div_small by exact A; reflexivity). lia.
Qed.
Lemma ne_swapped c bs off : wf_bytes bs ->
  @gread (on_big c) N (@rd_ne (on_big c) 2) bs off
  = rmap (fun '(v, o) => (swapped v, o)) (@gread (on_little c) N (@rd_ne (on_little c) 2) bs off).
Proof.
  intros W. unfold gread, rd_ne. cbn [native_le on_big on_little]. change (@end_bad (on_big c)) with (@end_bad (on_little c)).
  destruct (end_bad _ _); [reflexivity|]. unfold rd_be, rd_le. destruct (Nat.ltb_spec (length (skipn off bs)) 2) as [|L]; [reflexivity|]. cbn [rbind rmap].
  destruct (skipn off bs) as [|a [|b r]] eqn:E; cbn [length] in L; try lia.
  assert (W' : wf_bytes (a :: b :: r)) by (rewrite <- E; now apply wf_skipn).
  cbn [firstn]. inversion_clear W' as [|? ? A W'']. inversion_clear W'' as [|? ? B _]. now rewrite swapped_pair.
Qed.
Ltac to_little c :=
  change (@gread (on_big c)) with (@gread (on_little c)); change (@pread (on_big c)) with (@pread (on_little c));
  change (@rd_opt (on_big c)) with (@rd_opt (on_little c)); change (@gread_ok (on_big c)) with (@gread_ok (on_little c));
  change (@strip_and_validate_fcs (on_big c)) with (@strip_and_validate_fcs (on_little c)).
(** read the next thing, the same on both machines *)
Ltac same_step := match goal with |- rbind ?m _ = rmap _ (rbind ?m _) => destruct m as [[? ?]| |]; cbn [rbind rmap]; try reflexivity end.

Lemma header_swapped c bs : wf_bytes bs ->
  @rd_data_header (on_big c) bs = rmap (fun '(h, n) => (swapped_header h, n)) (@rd_data_header (on_little c) bs).
Proof.
  intros W. unfold rd_data_header. change (@gread (on_big c)) with (@gread (on_little c)).
  destruct (@gread (on_little c) _ (rd_le 2) bs 0) as [[fcf off]| |]; cbn [rbind rmap]; try reflexivity.
  destruct (fcf_frame_type fcf) as [| | |]; try reflexivity.
  change (@gread (on_little c)) with (@gread (on_big c)) at 1. rewrite ne_swapped by exact W.
  destruct (@gread (on_little c) _ (@rd_ne (on_little c) 2) bs off) as [[d o]| |]; cbn [rbind rmap]; try reflexivity.
  do 3 same_step.
  change (@gread (on_little c)) with (@gread (on_big c)) at 1. rewrite ne_swapped by exact W.
  match goal with |- context [@gread (on_little c) _ (@rd_ne (on_little c) 2) bs ?o] => destruct (@gread (on_little c) _ (@rd_ne (on_little c) 2) bs o) as [[? ?]| |] end; cbn [rbind rmap]; try reflexivity.
  to_little c. do 3 same_step.
Qed.
Lemma data_swapped c fcs bs : wf_bytes bs ->
  @rd_data (on_big c) fcs bs = rmap (fun '((h, p), n) => ((swapped_header h, p), n)) (@rd_data (on_little c) fcs bs).
Proof.
  intros W. unfold rd_data.
  assert (S : (if fcs then @strip_and_validate_fcs (on_big c) bs else Ok bs) = (if fcs then @strip_and_validate_fcs (on_little c) bs else Ok bs)) by reflexivity.
  rewrite S. clear S.
  assert (X : match (if fcs then @strip_and_validate_fcs (on_little c) bs else Ok bs) with Ok f => wf_bytes f | _ => True end).
  { destruct fcs; [|exact W]. destruct (@strip_and_validate_fcs (on_little c) bs) as [f| |] eqn:S; try exact I.
    apply (proj1 (@strip_fcs_spec (on_little c) bs W)) in S. rewrite S in W. now apply wf_bytes_app in W. }
  destruct (if fcs then _ else _) as [f| |]; cbn [rbind rmap]; try reflexivity. clear W. rename X into W.
  unfold gread. change (@end_bad (on_big c)) with (@end_bad (on_little c)). destruct (end_bad _ _); [reflexivity|].
  cbn [skipn]. rewrite header_swapped by exact W.
  destruct (@rd_data_header (on_little c) f) as [[h n]| |]; cbn [rbind rmap]; try reflexivity.
  replace (dh_subtype (swapped_header h)) with (dh_subtype h) by reflexivity.
  destruct (data_has_payload (dh_subtype h)); [|reflexivity]. destruct (slice_from f (0 + n)); reflexivity.
Qed.
Lemma sequence_swapped c g : wf_bytes g ->
  @gf_sequence_control (on_big c) g = rmap (option_map swapped) (@gf_sequence_control (on_little c) g).
Proof.
  intros W. unfold gf_sequence_control. change (@gf_fcf (on_big c) g) with (@gf_fcf (on_little c) g).
  destruct (@gf_fcf (on_little c) g) as [x| |]; cbn [rbind rmap]; try reflexivity.
  destruct (ft_has_sequence_control _); [|reflexivity]. unfold pread.
  rewrite ne_swapped by exact W. destruct (@gread (on_little c) _ _ g 22) as [[v o]| |]; reflexivity.
Qed.
Lemma eapol_machine c g : wf_bytes g -> @gf_is_eapol_key_frame (on_big c) g = @gf_is_eapol_key_frame (on_little c) g.
Proof.
  intros W. unfold gf_is_eapol_key_frame. change (@gf_fcf (on_big c) g) with (@gf_fcf (on_little c) g).
  destruct (@gf_fcf (on_little c) g) as [x| |]; cbn [rbind]; try reflexivity.
  destruct (fcf_frame_type x); try reflexivity. destruct (negb _); [reflexivity|].
  unfold gf_parse, pread, gread. change (@gf_matches (on_big c)) with (@gf_matches (on_little c)). change (@end_bad (on_big c)) with (@end_bad (on_little c)).
  destruct (@gf_matches (on_little c) _ g) as [[]| |]; cbn [rbind]; try reflexivity.
  destruct (@end_bad (on_little c) _ _); [reflexivity|]. cbn [skipn]. rewrite data_swapped by exact W.
  destruct (@rd_data (on_little c) false g) as [[[h p] n]| |]; reflexivity.
Qed.
Lemma rsn_swapped c bs : wf_bytes bs ->
  @rd_rsn (on_big c) bs = rmap (fun '(x, n) => (swapped_rsn x, n)) (@rd_rsn (on_little c) bs).
Proof.
  intros W. unfold rd_rsn. change (@gread (on_big c)) with (@gread (on_little c)). change (@rd_list (on_big c)) with (@rd_list (on_little c)).
  change (@rd_cipher (on_big c)) with (@rd_cipher (on_little c)). change (@gread_ok (on_big c) CipherSuite) with (@gread_ok (on_little c) CipherSuite).
  same_step. destruct (negb _); [reflexivity|].
  same_step. match goal with |- match ?o with _ => _ end = _ => destruct o end; [|reflexivity].
  same_step. match goal with |- match ?o with _ => _ end = _ => destruct o end; [|reflexivity].
  same_step. match goal with |- match ?o with _ => _ end = _ => destruct o end; [|reflexivity].
  unfold gread_ok at 1 3. rewrite ne_swapped by exact W.
  match goal with |- context [@gread (on_little c) _ (@rd_ne (on_little c) 2) bs ?o] => destruct (@gread (on_little c) _ (@rd_ne (on_little c) 2) bs o) as [[? ?]| |] end;
    cbn [rbind rmap]; try reflexivity.
  same_step. match goal with |- match ?o with _ => _ end = _ => destruct o end; [|reflexivity].
  same_step.
Qed.
Lemma peering_swapped c bs : wf_bytes bs ->
  @rd_peering (on_big c) bs = rmap (fun '(x, n) => (swapped_peering x, n)) (@rd_peering (on_little c) bs).
Proof.
  intros W. unfold rd_peering. rewrite ne_swapped by exact W.
  destruct (@gread (on_little c) _ (@rd_ne (on_little c) 2) bs 0) as [[p o]| |]; cbn [rbind rmap]; try reflexivity.
  rewrite ne_swapped by exact W.
  destruct (@gread (on_little c) _ (@rd_ne (on_little c) 2) bs o) as [[l o']| |]; cbn [rbind rmap]; try reflexivity.
  destruct (slice_from bs o') as [src| |]; cbn [rbind rmap]; try reflexivity.
  destruct (_ =? _); [|reflexivity]. cbn [rmap]. unfold swapped_peering. cbn [mp_protocol mp_local mp_rest mp_rest_len].
  now rewrite mesh_peering_proto_into_from.
Qed.
Lemma rest_swapped c x off : wf_bytes (mp_rest x) ->
  @rest_read (on_big c) N (@rd_ne (on_big c) 2) x off = rmap (fun '(v, o) => (swapped v, o)) (@rest_read (on_little c) N (@rd_ne (on_little c) 2) x off).
Proof. intros W. unfold rest_read. rewrite ne_swapped by exact W. destruct (@gread (on_little c) _ _ _ _) as [[]| |]; reflexivity. Qed.
Lemma confirm_swapped c x : wf_bytes (mp_rest x) ->
  @parse_as_confirm (on_big c) x = rmap (option_map swapped_links) (@parse_as_confirm (on_little c) x).
Proof.
  intros W. unfold parse_as_confirm. rewrite !rest_swapped by exact W. change (@rest_read (on_big c)) with (@rest_read (on_little c)).
  destruct (mp_rest_len x =? 2); [destruct (@rest_read (on_little c) N _ x 0) as [[]| |]; reflexivity|].
  destruct (mp_rest_len x =? 18); [|reflexivity].
  destruct (@rest_read (on_little c) N _ x 0) as [[v o]| |]; cbn [rbind rmap]; try reflexivity. same_step.
Qed.
Lemma close_swapped c x : wf_bytes (mp_rest x) ->
  @parse_as_close (on_big c) x = rmap (option_map swapped_links) (@parse_as_close (on_little c) x).
Proof.
  intros W. unfold parse_as_close.
  assert (K : forall p v k, @Ok serr _ (Some (mkParsed (mp_protocol x) (mp_local x) (option_map swapped p) (Some (reason_from_bits (swapped v))) k))
    = rmap (option_map swapped_links) (Ok (Some (mkParsed (mp_protocol x) (mp_local x) p (Some (reason_from_bits v)) k)))).
  { intros p v k. cbn [rmap option_map]. unfold swapped_links. cbn [pp_protocol pp_local pp_peer pp_reason pp_pmk option_map]. now rewrite reason_into_from. }
  repeat match goal with |- context [mp_rest_len x =? ?n] => destruct (mp_rest_len x =? n) end; try reflexivity;
    repeat (rewrite rest_swapped by exact W;
      match goal with |- context [@rest_read (on_little c) N ?r x ?o] => destruct (@rest_read (on_little c) N r x o) as [[? ?]| |] end; cbn [rbind rmap]; try reflexivity);
    change (@rest_read (on_big c)) with (@rest_read (on_little c));
    try same_step; first [exact (K None _ _)|exact (K (Some _) _ _)].
Qed.
(** the frame check sequence of a dynamic frame, most significant byte first *)
Lemma finish_big {cfg : Cfg} frame mpdu buf st0 calls raws st buf' n : native_le = false -> Writes (frame false) mpdu ->
  dyn_new frame buf = Ok st0 -> dyn_steps st0 calls st -> Forall2 call_element calls raws ->
  let p := mpdu ++ enc_elements (added calls raws) in wf_bytes p ->
  dyn_finish true st = Ok (buf', n) ->
  firstn n buf' = p ++ rev (le_bytes 4 (crc32 p)) /\
  (forall body, strip_and_validate_fcs (firstn n buf') = Ok body <-> body = p /\ rev (le_bytes 4 (crc32 p)) = le_bytes 4 (crc32 p)).
Proof.
  intros NL W N S F p Wp Fin. pose proof (dyn_steps_holds _ _ _ _ S raws mpdu F (dyn_new_holds _ _ _ _ W N)) as H. fold p in H.
  destruct (dyn_finish_spec _ _ _ H) as (_ & E2 & E3).
  assert (E : firstn n buf' = p ++ rev (le_bytes 4 (crc32 p))).
  { destruct (le_lt_dec (length p + 4) (length buf)) as [K|K].
    - destruct (E2 K) as (b2 & E & F2 & _). rewrite E in Fin. injection Fin as <- <-. rewrite F2. unfold ne_bytes. now rewrite NL.
    - destruct (E3 K) as (e & E). congruence. }
  split; [exact E|]. rewrite E. intros body.
  assert (W2 : wf_bytes (p ++ rev (le_bytes 4 (crc32 p)))).
  { apply wf_bytes_app. split; [exact Wp|]. apply Forall_rev. apply le_bytes_wf. }
  rewrite (proj1 (strip_fcs_spec _ W2)). split.
  - intros Q. assert (L : length p = length body) by (apply (f_equal (@length _)) in Q; rewrite !app_length, rev_length, !le_bytes_length in Q; lia).
    destruct (app_inj_len _ _ _ _ L Q) as [<- Q']. now split.
  - now intros [-> ->].
Qed.
Lemma header_pread c b : wf_bytes b ->
  @pread (on_big c) _ (@rd_data_header (on_big c)) b 0 = rmap swapped_header (@pread (on_little c) _ (@rd_data_header (on_little c)) b 0).
Proof.
  intros W. unfold pread, gread. change (@end_bad (on_big c)) with (@end_bad (on_little c)). destruct (@end_bad (on_little c) _ _); [reflexivity|].
  cbn [skipn]. rewrite header_swapped by exact W. destruct (@rd_data_header (on_little c) b) as [[]| |]; reflexivity.
Qed.
Lemma deserialize_machine c hmac kw_unwrap kck kek buffer temp akm fcs : wf_bytes buffer ->
  @deserialize_eapol (on_big c) hmac kw_unwrap kck kek buffer temp akm fcs = @deserialize_eapol (on_little c) hmac kw_unwrap kck kek buffer temp akm fcs.
Proof.
  intros W. unfold deserialize_eapol. cbn [overflow_checks on_big on_little].
  assert (X : match (if fcs then if length buffer <? 4 then if @overflow_checks c then Panic else Err BufferTooShort
               else Ok (firstn (length buffer - 4) buffer) else @Ok EapolSerdeError _ buffer) with Ok b => wf_bytes b | _ => True end).
  { destruct fcs; [|exact W]. destruct (length buffer <? 4); [now destruct (@overflow_checks c)|]. now apply wf_firstn. }
  destruct (if fcs then _ else _) as [b| |]; cbn [rbind]; try reflexivity.
  rewrite header_pread by exact X. destruct (@pread (on_little c) _ (@rd_data_header (on_little c)) b 0) as [h| |]; reflexivity.
Qed.
Lemma plain_in_place_machine c hmac kw_unwrap kck kek buffer temp akm : wf_bytes buffer ->
  @deserialize_plain_in_place (on_big c) hmac kw_unwrap kck kek buffer temp akm = @deserialize_plain_in_place (on_little c) hmac kw_unwrap kck kek buffer temp akm.
Proof.
  intros W. unfold deserialize_plain_in_place. rewrite header_pread by exact W.
  destruct (@pread (on_little c) _ (@rd_data_header (on_little c)) buffer 0) as [h| |]; reflexivity.
Qed.
Lemma in_place_machine c hmac kw_unwrap kck kek buffer temp akm fcs : wf_bytes buffer ->
  @deserialize_in_place (on_big c) hmac kw_unwrap kck kek buffer temp akm fcs = @deserialize_in_place (on_little c) hmac kw_unwrap kck kek buffer temp akm fcs.
Proof.
  intros W. unfold deserialize_in_place. cbn [overflow_checks on_big on_little]. destruct fcs; [|now apply plain_in_place_machine].
  destruct (length buffer <? 4); [reflexivity|]. now rewrite plain_in_place_machine by now apply wf_firstn.
Qed.

(** ** Build profile *)
Definition agrees {E A} (d r : Res E A) : Prop := d = r \/ d = Panic.
Lemma agrees_bind {E A B} (d r : Res E A) (k k' : A -> Res E B) : agrees d r -> (forall a, agrees (k a) (k' a)) -> agrees (rbind d k) (rbind r k').
Proof. intros [-> | ->] K; [|now right]. destruct r; cbn [rbind]; [apply K|now left|now left]. Qed.
Lemma agrees_same {E A} (m : Res E A) : agrees m m.
Proof. now left. Qed.
Lemma lwith_build {E} lay nm v x c : agrees (@lwith (debug c) E lay nm v x) (@lwith (release c) E lay nm v x).
Proof. unfold lwith. destruct (lpos lay nm) as [[o w]|]; [|now left]. cbn [overflow_checks debug release andb]. destruct (_ <? _)%N; [now right|now left]. Qed.
Lemma aid_build v c : agrees (@aid_new_unchecked (debug c) v) (@aid_new_unchecked (release c) v).
Proof. apply lwith_build. Qed.
Lemma rate_build r b c : agrees (@from_rate_in_kbps (debug c) r b) (@from_rate_in_kbps (release c) r b).
Proof. apply agrees_bind; [apply lwith_build|]. intros. apply agrees_same. Qed.
Lemma vht_fold_build c l : forall i acc, agrees (@vht_mcs_fold (debug c) i l acc) (@vht_mcs_fold (release c) i l acc).
Proof.
  induction l as [|x l IH]; intros i acc; cbn [vht_mcs_fold]; [apply agrees_same|]. apply agrees_bind; [|intros; apply IH].
  unfold shl_u8. cbn [overflow_checks debug release andb]. destruct (_ <=? _)%N; [now right|now left].
Qed.
Lemma vht_build l c : agrees (@from_vht_mcs_iter (debug c) l) (@from_vht_mcs_iter (release c) l).
Proof. apply vht_fold_build. Qed.
Lemma tim_static_build m l c : agrees (@tb_new_static (debug c) m l) (@tb_new_static (release c) m l).
Proof.
  unfold tb_new_static. apply agrees_bind; [apply agrees_same|]. intros [[a n1] n2]. apply agrees_bind; [apply agrees_same|]. intros b.
  apply agrees_bind; [apply lwith_build|]. intros. apply agrees_same.
Qed.
Lemma tim_list_build l c : agrees (@tim_bitmap_list (debug c) l) (@tim_bitmap_list (release c) l).
Proof.
  unfold tim_bitmap_list. apply agrees_bind; [apply agrees_same|]. intros [[a n1] n2].
  apply agrees_bind; [apply lwith_build|]. intros. apply agrees_same.
Qed.
Lemma tim_range_build lo hi c : agrees (@tim_bitmap_range (debug c) lo hi) (@tim_bitmap_range (release c) lo hi).
Proof.
  unfold tim_bitmap_range. destruct (_ <? _); [now left|]. apply agrees_bind; [apply agrees_same|]. intros b.
  apply agrees_bind; [apply lwith_build|]. intros. apply agrees_same.
Qed.
Lemma filter_build {A B} (f g : A -> Res serr (option B)) l : (forall a, agrees (f a) (g a)) -> agrees (filter_map_res f l) (filter_map_res g l).
Proof.
  intros H. induction l as [|a l IH]; [now left|]. cbn [filter_map_res]. apply agrees_bind; [apply H|]. intros o.
  apply agrees_bind; [exact IH|]. intros. apply agrees_same.
Qed.
Lemma aid_iter_build t c : agrees (@tb_aid_iter (debug c) t) (@tb_aid_iter (release c) t).
Proof.
  unfold tb_aid_iter. destruct (tb_bitmap t) as [b|]; [|now left]. apply agrees_bind; [apply agrees_same|]. intros bs.
  apply agrees_bind; [|intros; apply agrees_same]. apply filter_build. intros a. destruct (N.testbit _ _); [|now left].
  cbn [overflow_checks debug release andb]. cbn zeta. destruct (_ <? _)%N; [now right|now left].
Qed.
Lemma tb_display_build t c : agrees (@tb_display (debug c) t) (@tb_display (release c) t).
Proof. apply agrees_bind; [apply aid_iter_build|]. intros. apply agrees_same. Qed.
Lemma tb_defmt_build t c : agrees (@tb_defmt (debug c) t) (@tb_defmt (release c) t).
Proof. apply agrees_bind; [apply aid_iter_build|]. intros. apply agrees_same. Qed.
Lemma te_display_build t c : agrees (@te_display (debug c) t) (@te_display (release c) t).
Proof.
  apply agrees_bind; [|intros; apply agrees_same]. destruct (te_bitmap t); [|now left]. apply agrees_bind; [apply tb_display_build|].
  intros. apply agrees_same.
Qed.
Lemma te_defmt_build t c : agrees (@te_defmt (debug c) t) (@te_defmt (release c) t).
Proof.
  apply agrees_bind; [|intros; apply agrees_same]. destruct (te_bitmap t); [|now left]. apply agrees_bind; [apply tb_defmt_build|].
  intros. apply agrees_same.
Qed.
Lemma wr_data_build d fcs buf c : agrees (@wr_data (debug c) d fcs buf) (@wr_data (release c) d fcs buf).
Proof.
  unfold wr_data. apply agrees_bind; [|intros; apply agrees_same]. unfold data_fcf. apply agrees_bind; [apply lwith_build|intros; apply agrees_same].
Qed.
Lemma ctrl_fcf_build k c : agrees (@ctrl_fcf (debug c) serr k) (@ctrl_fcf (release c) serr k).
Proof. apply agrees_bind; [apply lwith_build|]. intros. apply agrees_same. Qed.
Lemma map_err_build {E F A} (e : F) (d r : Res E A) : agrees d r -> agrees (map_err e d) (map_err e r).
Proof. intros [-> | ->]; [now left|now right]. Qed.
Lemma pwrite_build (w w' : writer) buf off c : (forall b, agrees (w b) (w' b)) -> agrees (@pwrite (debug c) w buf off) (@pwrite (release c) w' buf off).
Proof.
  intros H. unfold pwrite, gwrite. change (@end_bad (debug c)) with (@end_bad (release c)). destruct (@end_bad (release c) _ _); [now left|].
  destruct (H (skipn off buf)) as [-> | ->]; [now left|now right].
Qed.
Lemma serialize_build hmac kw_wrap kck kek d buffer temp c :
  agrees (@serialize_eapol (debug c) hmac kw_wrap kck kek d buffer temp) (@serialize_eapol (release c) hmac kw_wrap kck kek d buffer temp).
Proof.
  unfold serialize_eapol. destruct (_ <? _); [now left|].
  apply agrees_bind; [apply agrees_same|]. intros [ms me]. apply agrees_bind; [apply agrees_same|]. intros s.
  apply agrees_bind; [apply agrees_same|]. intros [ds de]. apply agrees_bind; [apply agrees_same|]. intros st.
  apply agrees_bind; [|intros; apply agrees_same].
  apply map_err_build. apply pwrite_build. intros b. change (@eapol_data (debug c) d) with (@eapol_data (release c) d). apply wr_data_build.
Qed.
Lemma deserialize_build hmac kw_unwrap kck kek buffer temp akm fcs c :
  agrees (@deserialize_eapol (debug c) hmac kw_unwrap kck kek buffer temp akm fcs) (@deserialize_eapol (release c) hmac kw_unwrap kck kek buffer temp akm fcs).
Proof.
  unfold deserialize_eapol. apply agrees_bind; [|intros; apply agrees_same]. cbn [overflow_checks debug release].
  destruct fcs; [|now left]. destruct (_ <? _); [now right|now left].
Qed.
Lemma serialize_in_place_build hmac kw_wrap kck kek d buffer temp torn c :
  @serialize_in_place (debug c) hmac kw_wrap kck kek d buffer temp torn = @serialize_in_place (release c) hmac kw_wrap kck kek d buffer temp torn \/
  fst (@serialize_in_place (debug c) hmac kw_wrap kck kek d buffer temp torn) = Panic.
Proof.
  unfold serialize_in_place. destruct (_ <? _); [now left|].
  destruct (eapol_mic_range d) as [[ms me]|]; [|now left]. destruct (snd d) as [s|]; [|now left].
  destruct (eapol_key_data_length_range d) as [[ds de]|]; [|now left]. destruct (eapol_key_data_range d) as [st|]; [|now left].
  assert (A : agrees (@pwrite (debug c) (@wr_data (debug c) (@eapol_data (debug c) d) false) buffer 0) (@pwrite (release c) (@wr_data (release c) (@eapol_data (release c) d) false) buffer 0)).
  { apply pwrite_build. intros b. change (@eapol_data (debug c) d) with (@eapol_data (release c) d). apply wr_data_build. }
  destruct A as [-> | ->]; [now left|now right].
Qed.
Lemma deserialize_in_place_build hmac kw_unwrap kck kek buffer temp akm fcs c :
  @deserialize_in_place (debug c) hmac kw_unwrap kck kek buffer temp akm fcs = @deserialize_in_place (release c) hmac kw_unwrap kck kek buffer temp akm fcs \/
  fst (@deserialize_in_place (debug c) hmac kw_unwrap kck kek buffer temp akm fcs) = Panic.
Proof.
  unfold deserialize_in_place. cbn [overflow_checks debug release]. destruct fcs; [|now left].
  destruct (_ <? _); [now right|now left].
Qed.
(** the state of a dynamic frame after a sequence of calls *)
Lemma dyn_step_machine c st x st' : @dyn_step (on_big c) st x st' <-> @dyn_step (on_little c) st x st'.
Proof. split; intros H; inversion_clear H; [now apply dyn_added|now eapply dyn_failed; [eassumption|]|now apply dyn_added|now eapply dyn_failed; [eassumption|]]. Qed.
Lemma dyn_steps_machine c st calls st' : @dyn_steps (on_big c) st calls st' <-> @dyn_steps (on_little c) st calls st'.
Proof.
  split; (induction 1; [apply dyn_done|]); (eapply Mgmt.dyn_next; [|eassumption]); now apply dyn_step_machine.
Qed.
Lemma dyn_step_build c st x st' : @dyn_step (debug c) st x st' <-> @dyn_step (release c) st x st'.
Proof. split; intros H; inversion_clear H; [now apply dyn_added|now eapply dyn_failed; [eassumption|]|now apply dyn_added|now eapply dyn_failed; [eassumption|]]. Qed.
Lemma dyn_steps_build c st calls st' : @dyn_steps (debug c) st calls st' <-> @dyn_steps (release c) st calls st'.
Proof.
  split; (induction 1; [apply dyn_done|]); (eapply Mgmt.dyn_next; [|eassumption]); now apply dyn_step_build.
Qed.
Lemma elements_machine :
  any_machine (fun c => @SSIDElement c) /\ any_machine (fun c => @MeshIDElement c) /\ any_machine (fun c => @SupportedRatesElement c) /\
  any_machine (fun c => @ExtendedSupportedRatesElement c) /\ any_machine (fun c => @DSSSParameterSetElement c) /\ any_machine (fun c => @IBSSParameterSetElement c) /\
  any_machine (fun c => @BSSLoadElement c) /\ any_machine (fun c => @TIMElement c) /\ any_machine (fun c => @HTCapabilitiesElement c) /\
  any_machine (fun c => @HTOperationElement c) /\ any_machine (fun c => @VHTCapabilitiesElement c) /\ any_machine (fun c => @VHTOperationElement c) /\
  any_machine (fun c => @MeshConfigurationElement c) /\ any_machine (fun c => @OWETransitionModeElement c) /\ any_machine (fun c => @VendorSpecificElement c) /\
  any_machine (fun c => @MacAddressKde c) /\ any_machine (fun c => @PmkidKde c) /\ any_machine (fun c => @NonceKde c) /\ any_machine (fun c => @LifetimeKde c) /\
  any_machine (fun c => @GtkKde c) /\ any_machine (fun c => @wr_rsn c) /\ any_machine (fun c => @rsn_measure c) /\ any_machine (fun c => @raw_elements c) /\
  any_machine (fun c => @get_first_element_raw c) /\ any_machine (fun c => @get_matching_elements_raw c) /\ any_machine (fun c => @get_first_element c) /\
  any_machine (fun c => @get_matching_elements c) /\ any_machine (fun c => @parse_raw_element c) /\ any_machine (fun c => @match_and_parse c) /\
  any_machine (fun c => @wr_elements c) /\ any_machine (fun c => @wr_chain c) /\ any_machine (fun c => @wr_wrapped c) /\ any_machine (fun c => @tb_write c) /\
  any_machine (fun c => @wr_vendor c) /\ any_machine (fun c => @rd_typed_ext c).
Proof. repeat split. Qed.
Lemma mgmt_machine :
  any_machine (fun c => @Beacon c) /\ any_machine (fun c => @ProbeResponse c) /\ any_machine (fun c => @ProbeRequest c) /\ any_machine (fun c => @Authentication c) /\
  any_machine (fun c => @AssociationRequest c) /\ any_machine (fun c => @AssociationResponse c) /\ any_machine (fun c => @Deauthentication c) /\
  any_machine (fun c => @Disassociation c) /\ any_machine (fun c => @RawAction c) /\ any_machine (fun c => @RawVendorSpecificAction c) /\
  any_machine (fun c => @MeshPeeringOpen c) /\ any_machine (fun c => @MeshPeeringConfirm c) /\ any_machine (fun c => @MeshPeeringClose c) /\
  any_machine (fun c => @rd_mgmt c) /\ any_machine (fun c => @wr_mgmt c) /\ any_machine (fun c => @into_dynamic c) /\ any_machine (fun c => @dyn_add c) /\
  any_machine (fun c => @beacon_ssid c) /\ any_machine (fun c => @probe_ssid c) /\ any_machine (fun c => @is_vendor_and_matches c) /\
  any_machine (fun c => @append_vendor_action_header c) /\ any_machine (fun c => @strip_and_check_vendor_action_header c) /\ any_machine (fun c => @attach_fcs c) /\
  any_machine (fun c => @strip_and_validate_fcs c).
Proof. repeat split. Qed.
Lemma frames_machine :
  any_machine (fun c => @wr_data c) /\ any_machine (fun c => @potentially_wrapped_payload c) /\ any_machine (fun c => @rd_crypto_header c) /\
  any_machine (fun c => @wr_crypto_header c) /\ any_machine (fun c => @rd_wrapped c) /\ any_machine (fun c => @c_crypto c) /\ any_machine (fun c => @amsdu_items c) /\
  any_machine (fun c => @c_amsdu c) /\ any_machine (fun c => @rd_ctrl c) /\ any_machine (fun c => @wr_ctrl c) /\ any_machine (fun c => @gf_new c) /\
  any_machine (fun c => @gf_fcf c) /\ any_machine (fun c => @gf_duration c) /\ any_machine (fun c => @gf_address_1 c) /\ any_machine (fun c => @gf_address_2 c) /\
  any_machine (fun c => @gf_address_3 c) /\ any_machine (fun c => @gf_matches c) /\ any_machine (fun c => @gf_parse c) /\ any_machine (fun c => @match_frames c).
Proof. repeat split. Qed.
Lemma keys_machine :
  any_machine (fun c => @rd_key_frame c) /\ any_machine (fun c => @wr_key_frame c) /\ any_machine (fun c => @eapol_data c) /\
  any_machine (fun c => @serialize_eapol c) /\ any_machine (fun c => @serialize_in_place c) /\ any_machine (fun c => @decrypt_key_data c).
Proof. repeat split. Qed.
Lemma elements_build :
  any_build (fun c => @SSIDElement c) /\ any_build (fun c => @MeshIDElement c) /\ any_build (fun c => @SupportedRatesElement c) /\
  any_build (fun c => @ExtendedSupportedRatesElement c) /\ any_build (fun c => @DSSSParameterSetElement c) /\ any_build (fun c => @IBSSParameterSetElement c) /\
  any_build (fun c => @BSSLoadElement c) /\ any_build (fun c => @TIMElement c) /\ any_build (fun c => @HTCapabilitiesElement c) /\
  any_build (fun c => @HTOperationElement c) /\ any_build (fun c => @VHTCapabilitiesElement c) /\ any_build (fun c => @VHTOperationElement c) /\
  any_build (fun c => @MeshConfigurationElement c) /\ any_build (fun c => @OWETransitionModeElement c) /\ any_build (fun c => @VendorSpecificElement c) /\
  any_build (fun c => @MacAddressKde c) /\ any_build (fun c => @PmkidKde c) /\ any_build (fun c => @NonceKde c) /\ any_build (fun c => @LifetimeKde c) /\
  any_build (fun c => @GtkKde c) /\ any_build (fun c => @RsnElement c) /\ any_build (fun c => @MeshPeeringElement c) /\ any_build (fun c => @wr_rsn c) /\
  any_build (fun c => @rsn_measure c) /\ any_build (fun c => @raw_elements c) /\ any_build (fun c => @get_first_element_raw c) /\
  any_build (fun c => @get_matching_elements_raw c) /\ any_build (fun c => @get_first_element c) /\ any_build (fun c => @get_matching_elements c) /\
  any_build (fun c => @parse_raw_element c) /\ any_build (fun c => @match_and_parse c) /\ any_build (fun c => @wr_elements c) /\ any_build (fun c => @wr_chain c) /\
  any_build (fun c => @wr_wrapped c) /\ any_build (fun c => @tb_write c) /\ any_build (fun c => @wr_vendor c) /\ any_build (fun c => @rd_typed_ext c) /\
  any_build (fun c => @parse_as_open c) /\ any_build (fun c => @parse_as_confirm c) /\ any_build (fun c => @parse_as_close c) /\
  any_build (fun c => @peering_new_open c) /\ any_build (fun c => @peering_new_confirm c) /\ any_build (fun c => @peering_new_close c).
Proof. repeat split. Qed.
Lemma mgmt_build :
  any_build (fun c => @Beacon c) /\ any_build (fun c => @ProbeResponse c) /\ any_build (fun c => @ProbeRequest c) /\ any_build (fun c => @Authentication c) /\
  any_build (fun c => @AssociationRequest c) /\ any_build (fun c => @AssociationResponse c) /\ any_build (fun c => @Deauthentication c) /\
  any_build (fun c => @Disassociation c) /\ any_build (fun c => @RawAction c) /\ any_build (fun c => @RawVendorSpecificAction c) /\
  any_build (fun c => @MeshPeeringOpen c) /\ any_build (fun c => @MeshPeeringConfirm c) /\ any_build (fun c => @MeshPeeringClose c) /\ any_build (fun c => @rd_mgmt c) /\
  any_build (fun c => @wr_mgmt c) /\ any_build (fun c => @into_dynamic c) /\ any_build (fun c => @dyn_add c) /\ any_build (fun c => @beacon_ssid c) /\
  any_build (fun c => @probe_ssid c) /\ any_build (fun c => @is_vendor_and_matches c) /\ any_build (fun c => @append_vendor_action_header c) /\
  any_build (fun c => @strip_and_check_vendor_action_header c) /\ any_build (fun c => @attach_fcs c) /\ any_build (fun c => @strip_and_validate_fcs c) /\
  any_build (fun c => @dyn_finish c).
Proof. repeat split. Qed.
Lemma frames_build :
  any_build (fun c => @potentially_wrapped_payload c) /\ any_build (fun c => @rd_crypto_header c) /\ any_build (fun c => @wr_crypto_header c) /\
  any_build (fun c => @rd_wrapped c) /\ any_build (fun c => @c_crypto c) /\ any_build (fun c => @amsdu_items c) /\ any_build (fun c => @c_amsdu c) /\
  any_build (fun c => @rd_ctrl c) /\ any_build (fun c => @wr_ctrl c) /\ any_build (fun c => @rd_data c) /\ any_build (fun c => @gf_new c) /\
  any_build (fun c => @gf_fcf c) /\ any_build (fun c => @gf_duration c) /\ any_build (fun c => @gf_address_1 c) /\ any_build (fun c => @gf_address_2 c) /\
  any_build (fun c => @gf_address_3 c) /\ any_build (fun c => @gf_matches c) /\ any_build (fun c => @gf_parse c) /\ any_build (fun c => @match_frames c) /\
  any_build (fun c => @gf_sequence_control c) /\ any_build (fun c => @gf_is_eapol_key_frame c).
Proof. repeat split. Qed.
Lemma keys_build :
  any_build (fun c => @rd_key_frame c) /\ any_build (fun c => @wr_key_frame c) /\ any_build (fun c => @eapol_data c) /\ any_build (fun c => @decrypt_key_data c) /\
  any_build (fun c => @deserialize_plain_in_place c) /\ any_build (fun c => @michael c).
Proof. repeat split. Qed.
Lemma data_machine_differs (c : Cfg) : exists bs, wf_bytes bs /\ @rd_data (on_big c) false bs <> @rd_data (on_little c) false bs.
Proof.
  exists [8; 2; 44; 1; 1; 1; 1; 1; 1; 1; 2; 2; 2; 2; 2; 2; 3; 3; 3; 3; 3; 3; 16; 32; 9; 9]%N. split; [now apply wf_bytesb_spec|].
  destruct c as [[] [] []]; vm_compute; discriminate.
Qed.
Lemma constructors_build :
  (forall v, or_panics (fun c => @aid_new_unchecked c v)) /\ (forall v, or_panics (fun c => @aid_macro c v)) /\
  (forall r b, or_panics (fun c => @from_rate_in_kbps c r b)) /\ (forall r b, or_panics (fun c => @rate_macro c r b)) /\
  (forall l, or_panics (fun c => @from_vht_mcs_iter c l)) /\
  (forall m l, or_panics (fun c => @tb_new_static c m l)) /\ (forall l, or_panics (fun c => @tim_bitmap_list c l)) /\
  (forall lo hi, or_panics (fun c => @tim_bitmap_range c lo hi)).
Proof.
  split; [exact aid_build|]. split. { intros v c. unfold aid_macro. destruct (_ =? _)%N; [now left|]. destruct (_ <? _)%N; [now left|]. apply aid_build. }
  split; [exact rate_build|]. split; [intros r b c; apply rate_build|]. split; [exact vht_build|]. split; [exact tim_static_build|].
  split; [exact tim_list_build|exact tim_range_build].
Qed.
