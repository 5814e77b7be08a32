(** Proofs about control frames and frames of unknown type. *)
From Coq Require Import Permutation.
From Verif Require Import Base BaseFacts Bits Layouts BitsFacts Enums EnumsFacts Common SpecBase SpecCommon CommonFacts Crc CrcFacts
  Elements ElementsFacts ElementTypes SpecElementTypes ElementTypesFacts StepsFacts Mgmt SpecMgmt MgmtFacts MgmtFacts2 MgmtFacts3 MgmtFacts4 MgmtFacts5
  CryptoHeader Amsdu Data SpecData DataFacts DataFacts2 DataFacts3 Control Generic SpecGeneric.

Section Facts.
Context {cfg : Cfg}.

(** ** Fields at fixed places *)
Lemma pread_field n off g : 0 < n -> res_ok (pread (rd_bytes n) g off) = @Ok serr _ (field_at n off g).
Proof.
  intros N. unfold field_at, pread, gread. destruct (Nat.leb_spec (off + n) (length g)) as [L|L].
  - rewrite end_bad_lt by lia. unfold rd_bytes. rewrite skipn_length. rewrite (proj2 (Nat.ltb_ge _ _)) by lia. reflexivity.
  - destruct (end_bad off (length g)); [reflexivity|]. unfold rd_bytes. rewrite skipn_length.
    rewrite (proj2 (Nat.ltb_lt _ _)) by lia. reflexivity.
Qed.
Lemma pread_field_le n off g : 0 < n -> res_ok (pread (rd_le n) g off) = @Ok serr _ (option_map le_val (field_at n off g)).
Proof.
  intros N. unfold field_at, pread, gread. destruct (Nat.leb_spec (off + n) (length g)) as [L|L].
  - rewrite end_bad_lt by lia. unfold rd_le. rewrite skipn_length. rewrite (proj2 (Nat.ltb_ge _ _)) by lia. reflexivity.
  - destruct (end_bad off (length g)); [reflexivity|]. unfold rd_le. rewrite skipn_length.
    rewrite (proj2 (Nat.ltb_lt _ _)) by lia. reflexivity.
Qed.
Lemma unwrap_of_ok {A} (r : Res serr A) x : res_ok r = @Ok serr _ (Some x) -> res_unwrap r = @Ok serr _ x.
Proof. destruct r; cbn; congruence. Qed.
Lemma gf_fcf_ok g : 10 <= length g -> gf_fcf g = Ok (le_val (firstn 2 g)).
Proof.
  intros L. unfold gf_fcf. apply unwrap_of_ok. rewrite pread_field_le by lia. unfold field_at.
  rewrite (proj2 (Nat.leb_le _ _)) by lia. reflexivity.
Qed.
Lemma gf_duration_ok g : 10 <= length g -> gf_duration g = Ok (le_val (firstn 2 (skipn 2 g))).
Proof.
  intros L. unfold gf_duration. apply unwrap_of_ok. rewrite pread_field_le by lia. unfold field_at.
  rewrite (proj2 (Nat.leb_le _ _)) by lia. reflexivity.
Qed.
Lemma gf_address_1_ok g : 10 <= length g -> gf_address_1 g = Ok (firstn 6 (skipn 4 g)).
Proof.
  intros L. unfold gf_address_1. apply unwrap_of_ok. rewrite pread_field by lia. unfold field_at.
  rewrite (proj2 (Nat.leb_le _ _)) by lia. reflexivity.
Qed.
(** the frame type *)
Definition type_of_bits (t s : N) : FrameType :=
  match t with
  | 0 => FT_Management (mgmt_subtype_from_bits s)
  | 1 => FT_Control (ctrl_subtype_from_bits s)
  | 2 => FT_Data (data_subtype_from_bits s)
  | _ => FT_Unknown s
  end%N.
Lemma gf_type g : wf_bytes g -> 10 <= length g ->
  fcf_frame_type (le_val (firstn 2 g)) = type_of_bits (frame_type_bits g) (frame_subtype_bits g) /\
  fcf_flags (le_val (firstn 2 g)) = byte g 1.
Proof.
  intros W L. destruct g as [|b0 [|b1 g]]; try (cbn in L; lia).
  apply wf_bytes_cons in W as [H0 W]. apply wf_bytes_cons in W as [H1 W].
  cbn [firstn le_val]. replace (b0 + 256 * (b1 + 256 * 0))%N with (b0 + 256 * b1)%N by lia.
  destruct (fcf_of_bytes b0 b1 H0 H1) as [F T]. split; [|exact F].
  assert (B : (b0 + 256 * b1 < 65536)%N) by lia. pose proof (fcf_parsed_canonical _ B) as C.
  unfold frame_type_bits, frame_subtype_bits, byte. cbn [nth].
  destruct (fcf_frame_type (b0 + 256 * b1)) as [s|s|s|s]; cbn [spec_type_of canonical_frame_type] in *;
    injection T as T1 T2; rewrite <- T1, <- T2; cbn [type_of_bits]; f_equal; try (symmetry; apply C); reflexivity.
Qed.
Lemma type_bits_lt g : (frame_type_bits g < 4)%N. Proof. unfold frame_type_bits. lia. Qed.
Lemma subtype_bits_lt g : (frame_subtype_bits g < 16)%N. Proof. unfold frame_subtype_bits. lia. Qed.
Lemma has_address_2_bits g : ft_has_address_2 (type_of_bits (frame_type_bits g) (frame_subtype_bits g))
  = has_second_address g && negb (missed_second_address g).
Proof.
  unfold has_second_address, missed_second_address, mgmt_or_data.
  pose proof (type_bits_lt g) as Ht. pose proof (subtype_bits_lt g) as Hs. revert Ht Hs.
  generalize (frame_type_bits g) (frame_subtype_bits g). intros t s Ht Hs.
  assert (F : forallb (fun t => forallb (fun s => Bool.eqb (ft_has_address_2 (type_of_bits t s))
     (((t =? 0) || (t =? 2) || (t =? 1) && existsb (N.eqb s) [4; 5; 8; 9; 10; 11; 14; 15])%N && negb ((t =? 1)%N && existsb (N.eqb s) [4; 5; 11; 15]%N)))
     (Nseq 16)) (Nseq 4) = true) by (vm_compute; reflexivity).
  rewrite forallb_forall in F. specialize (F t (Nseq_in 4 t Ht)). cbv beta in F.
  rewrite forallb_forall in F. specialize (F s (Nseq_in 16 s Hs)). cbv beta in F. now apply Bool.eqb_prop in F.
Qed.
Lemma has_address_3_bits g : ft_has_address_3 (type_of_bits (frame_type_bits g) (frame_subtype_bits g)) = mgmt_or_data g.
Proof.
  unfold mgmt_or_data. pose proof (type_bits_lt g) as Ht. revert Ht. generalize (frame_type_bits g) (frame_subtype_bits g). intros t s Ht.
  assert (t = 0 \/ t = 1 \/ t = 2 \/ t = 3)%N as [-> |[-> |[-> | ->]]] by lia; reflexivity.
Qed.
Lemma has_seq_bits g : ft_has_sequence_control (type_of_bits (frame_type_bits g) (frame_subtype_bits g)) = mgmt_or_data g.
Proof. exact (has_address_3_bits g). Qed.
Lemma accessors g : wf_bytes g -> 10 <= length g ->
  gf_fcf g = Ok (le_val (firstn 2 g)) /\ gf_duration g = Ok (le_val (firstn 2 (skipn 2 g))) /\
  gf_address_1 g = Ok (firstn 6 (skipn 4 g)) /\
  gf_address_2 g = Ok (if has_second_address g && negb (missed_second_address g) then field_at 6 10 g else None) /\
  gf_address_3 g = Ok (if mgmt_or_data g then field_at 6 16 g else None) /\
  (exists o, gf_sequence_control g = Ok o /\
     (native_le = true -> o = if mgmt_or_data g then option_map le_val (field_at 2 22 g) else None)).
Proof.
  intros W L. destruct (gf_type g W L) as [T _].
  split; [now apply gf_fcf_ok|]. split; [now apply gf_duration_ok|]. split; [now apply gf_address_1_ok|].
  unfold gf_address_2, gf_address_3, gf_sequence_control. rewrite gf_fcf_ok by exact L. cbn [rbind].
  rewrite T, has_address_2_bits, has_address_3_bits, has_seq_bits.
  split; [destruct (has_second_address g && negb (missed_second_address g)); [now apply pread_field; lia|reflexivity]|].
  split; [destruct (mgmt_or_data g); [now apply pread_field; lia|reflexivity]|].
  destruct (mgmt_or_data g); [|eauto].
  destruct (native_le) eqn:NL.
  - eexists. split; [|reflexivity]. unfold rd_ne. rewrite NL. now apply pread_field_le; lia.
  - destruct (pread (rd_ne 2) g 22) as [v| |] eqn:P.
    + exists (Some v). split; [reflexivity|discriminate].
    + exists None. split; [reflexivity|discriminate].
    + exfalso. revert P. apply pread_no_panic, rd_ne_NP.
Qed.
Lemma gf_new_spec bs : wf_bytes bs ->
  (gf_new bs false = if length bs <? 10 then Err BadInput else Ok bs) /\
  match gf_new bs true with
  | Ok g => bs = g ++ le_bytes 4 (crc32 g) /\ 10 <= length g
  | Err _ => 4 <= length bs /\ forall g, bs = g ++ le_bytes 4 (crc32 g) -> length g < 10
  | Panic => length bs < 4
  end.
Proof.
  intros W. split; [reflexivity|]. unfold gf_new. pose proof (strip_fcs_cases bs W) as C.
  destruct (strip_and_validate_fcs bs) as [g|e|] eqn:S; cbn [rbind].
  - destruct (Nat.ltb_spec (length g) 10) as [L|L]; [|auto]. split; [rewrite C, app_length, le_bytes_length; lia|].
    intros g' E. pose proof (proj2 (proj1 (strip_fcs_spec bs W) g') E). congruence.
  - destruct C as [L C]. split; [exact L|]. intros g E. now apply C in E.
  - exact C.
Qed.

(** ** Matching *)
Lemma mgmt_eqb_bits n s : (n < 16)%N -> In s [Mg_AssociationRequest; Mg_AssociationResponse; Mg_ProbeRequest; Mg_ProbeResponse; Mg_Beacon;
    Mg_Disassociation; Mg_Authentication; Mg_Deauthentication; Mg_Action] ->
  mgmt_subtype_eqb (mgmt_subtype_from_bits n) s = (n =? mgmt_subtype_into_bits s)%N.
Proof.
  intros H I. set (l := [Mg_AssociationRequest; _; _; _; _; _; _; _; _]) in I.
  assert (F : forallb (fun n => forallb (fun s => Bool.eqb (mgmt_subtype_eqb (mgmt_subtype_from_bits n) s) (n =? mgmt_subtype_into_bits s)%N) l) (Nseq 16) = true) by (vm_compute; reflexivity).
  rewrite forallb_forall in F. specialize (F n (Nseq_in 16 n H)). cbv beta in F. rewrite forallb_forall in F. specialize (F s I). now apply Bool.eqb_prop in F.
Qed.
(** reading an action frame for matching *)
Lemma rd_action_frame g : wf_bytes g -> 10 <= length g -> frame_type_bits g = 0%N ->
  match mgmt_body g with
  | [] => exists e, pread (rd_mgmt RawAction false) g 0 = Err e
  | b :: rest => exists h, pread (rd_mgmt RawAction false) g 0 = Ok (h, mkRA (category_from_bits b) rest)
  end.
Proof.
  intros W L T. unfold mgmt_body.
  destruct g as [|b0 [|b1 p]]; try (cbn in L; lia).
  pose proof W as W'. apply wf_bytes_cons in W' as [H0 W']. apply wf_bytes_cons in W' as [H1 Wp].
  unfold frame_type_bits, byte in *. cbn [nth] in *.
  assert (Psplit : forall r, pread (rd_mgmt RawAction false) (b0 :: b1 :: p) 0 = r ->
    match rd_mgmt RawAction false (b0 :: b1 :: p) with Ok (x, _) => r = Ok x | Err e => r = Err e | Panic => r = Panic end).
  { intros r <-. unfold pread, gread. rewrite end_bad_lt by (cbn; lia). cbn [skipn]. destruct (rd_mgmt RawAction false (b0 :: b1 :: p)) as [[x n]| |]; reflexivity. }
  specialize (Psplit _ eq_refl).
  assert (Sk : forall k, skipn (S (S k)) (b0 :: b1 :: p) = skipn k p) by reflexivity.
  replace (skipn (if N.testbit b1 7 then 28 else 24) (b0 :: b1 :: p)) with (skipn (if N.testbit b1 7 then 26 else 22) p) by (destruct (N.testbit b1 7); reflexivity).
  destruct (le_lt_dec (length p) (if N.testbit b1 7 then 26 else 22)) as [Ls|Ls].
  - rewrite skipn_all2 by exact Ls.
    destruct (rd_mgmt RawAction false (b0 :: b1 :: p)) as [[[h r] n]|e|] eqn:E.
    + exfalso. destruct (rd_mgmt_inv _ false _ h r n W E) as (c0 & body & m & _ & _ & _ & OK & Eb & Rb & _).
      assert (Ef : b1 = mh_flags h) by exact (f_equal (fun l => nth 1 l 0%N) Eb).
      assert (Ep : p = enc_mgmt_header h ++ body) by exact (f_equal (skipn 2) Eb).
      clear Eb. rename Ep into Eb.
      assert (body = []) as ->.
      { apply length_zero_iff_nil. apply (f_equal (@length _)) in Eb. rewrite app_length in Eb.
        pose proof (mgmt_header_length h OK) as LH. unfold mh_length in LH. destruct OK as (_ & _ & _ & _ & _ & _ & OK). rewrite <- Ef in OK.
        destruct (mh_ht h); [destruct OK as [OK _]|]; rewrite OK in Ls; lia. }
      revert Rb. cbn [bt_read RawAction]. unfold rd_raw_action, gread. destruct (end_bad 0 _); discriminate.
    + eauto.
    + exfalso. revert E. apply rd_mgmt_no_panic. intros from. cbn [bt_read RawAction]. unfold rd_raw_action. intros Q.
      destruct (gread rd_u8 from 0) as [[c o]| |] eqn:G; cbn [rbind] in Q; try discriminate.
      * pose proof (gread_bounds _ _ _ _ _ rd_u8_IB G) as B. rewrite slice_from_ok in Q by apply B. discriminate.
      * revert G. apply gread_no_panic, rd_u8_NP.
  - (* the header is complete *)
    assert (X : exists h, ok_mgmt_header h /\ mh_flags h = b1 /\ p = enc_mgmt_header h ++ skipn (if N.testbit b1 7 then 26 else 22) p).
    { assert (O : order b1 = N.testbit b1 7) by apply flag_bits.
      destruct (split_le 2 p Wp) as (d & r1 & Hd & E1 & W1 & L1); [destruct (N.testbit b1 7); lia|].
      destruct (split_bytes 6 r1 W1) as (a & r2 & La & Wa & E2 & W2 & L2); [destruct (N.testbit b1 7); lia|].
      destruct (split_bytes 6 r2 W2) as (b & r3 & Lb & Wb & E3 & W3 & L3); [destruct (N.testbit b1 7); lia|].
      destruct (split_bytes 6 r3 W3) as (c & r4 & Lc & Wc & E4 & W4 & L4); [destruct (N.testbit b1 7); lia|].
      destruct (split_le 2 r4 W4) as (s & r5 & Hs & E5 & W5 & L5); [destruct (N.testbit b1 7); lia|].
      destruct (N.testbit b1 7) eqn:O7.
      - destruct (split_bytes 4 r5 W5) as (ht & r6 & Lh & Wh & E6 & W6 & L6); [lia|].
        exists (mkMH b1 d a b c s (Some ht)). split; [repeat split; auto|]. split; [reflexivity|].
        assert (Ep : p = enc_mgmt_header (mkMH b1 d a b c s (Some ht)) ++ r6) by (unfold enc_mgmt_header; cbn [mh_duration mh_ra mh_ta mh_bssid mh_seq mh_ht]; rewrite <- !app_assoc; cbn [app]; congruence).
        rewrite Ep at 1. f_equal. rewrite Ep. symmetry. apply skipn_app_exact. unfold enc_mgmt_header. cbn [mh_duration mh_ra mh_ta mh_bssid mh_seq mh_ht].
        rewrite !app_length, !le_bytes_length. lia.
      - exists (mkMH b1 d a b c s None). split; [repeat split; auto|]. split; [reflexivity|].
        assert (Ep : p = enc_mgmt_header (mkMH b1 d a b c s None) ++ r5) by (unfold enc_mgmt_header; cbn [mh_duration mh_ra mh_ta mh_bssid mh_seq mh_ht]; rewrite <- !app_assoc; cbn [app]; congruence).
        rewrite Ep at 1. f_equal. rewrite Ep. symmetry. apply skipn_app_exact. unfold enc_mgmt_header. cbn [mh_duration mh_ra mh_ta mh_bssid mh_seq mh_ht].
        rewrite !app_length, !le_bytes_length. cbn [length]. lia. }
    destruct X as (h & OK & F & Ep).
    set (body := skipn (if N.testbit b1 7 then 26 else 22) p) in *.
    destruct body as [|b rest] eqn:Eb.
    { exfalso. assert (Lz : length body = 0) by now rewrite Eb. unfold body in Lz. rewrite skipn_length in Lz. lia. }
    exists h.
    assert (R : rd_mgmt RawAction false (b0 :: b1 :: p) = Ok ((h, mkRA (category_from_bits b) rest), S (2 + length (enc_mgmt_header h)))).
    { unfold rd_mgmt. cbn [rbind].
      assert (A : At (b0 :: b1 :: p) 0 (le_bytes 2 (b0 + 256 * b1) ++ p)) by (rewrite two_bytes by assumption; apply At_start).
      assert (B : (b0 + 256 * b1 < 65536)%N) by lia.
      rewrite (gread_step (rd_le 2) _ 0 _ _ p A (rd_le_R 2 (b0 + 256 * b1) B)) by discriminate. cbn [rbind]. apply At_step in A.
      destruct (fcf_of_bytes b0 b1 H0 H1) as [FF FT]. rewrite FF.
      destruct (fcf_frame_type (b0 + 256 * b1)) as [s|s|s|s]; cbn [spec_type_of] in FT; try (rewrite T in FT; discriminate).
      rewrite Ep in A at 2. pose proof (rd_mgmt_header_R h OK) as RH. rewrite F in RH.
      rewrite (gread_step _ _ _ _ _ _ A RH) by apply enc_mgmt_header_ne. cbn [rbind]. apply At_step in A.
      rewrite (gread_at _ _ _ _ A) by (right; discriminate). cbn [bt_read RawAction]. unfold rd_raw_action.
      pose proof (At_start (b :: rest)) as A2. change (b :: rest) with ([b] ++ rest) in A2 at 2.
      rewrite (gread_step _ _ _ _ _ _ A2 (rd_u8_R b)) by discriminate. cbn [rbind length Nat.add slice_from].
      rewrite slice_from_ok by (cbn; lia). cbn [rbind skipn length]. do 2 f_equal. rewrite le_bytes_length. lia. }
    rewrite R in Psplit. exact Psplit.
Qed.
Lemma matches_spec {A B} (t : BodyType A B) : In (bt_subtype t) [Mg_AssociationRequest; Mg_AssociationResponse; Mg_ProbeRequest; Mg_ProbeResponse; Mg_Beacon;
    Mg_Disassociation; Mg_Authentication; Mg_Deauthentication] ->
  forall g, wf_bytes g -> 10 <= length g ->
  exists b, gf_matches (mgmt_kind t) g = Ok b /\ (b = true <-> is_mgmt (mgmt_subtype_into_bits (bt_subtype t)) g).
Proof.
  intros I g W L. unfold gf_matches. rewrite gf_fcf_ok by exact L. cbn [rbind]. destruct (gf_type g W L) as [-> _].
  pose proof (type_bits_lt g) as Ht. pose proof (subtype_bits_lt g) as Hs. unfold is_mgmt.
  assert (I' : In (bt_subtype t) [Mg_AssociationRequest; Mg_AssociationResponse; Mg_ProbeRequest; Mg_ProbeResponse; Mg_Beacon;
    Mg_Disassociation; Mg_Authentication; Mg_Deauthentication; Mg_Action]) by (cbn [In] in *; tauto).
  assert (frame_type_bits g = 0 \/ frame_type_bits g = 1 \/ frame_type_bits g = 2 \/ frame_type_bits g = 3)%N as [E|[E|[E|E]]] by lia;
    rewrite E; cbn [type_of_bits fk_type mgmt_kind]; try (exists false; split; [reflexivity|]; split; [discriminate|intros [X _]; discriminate]).
  rewrite (mgmt_eqb_bits _ _ Hs I'). destruct (N.eqb_spec (frame_subtype_bits g) (mgmt_subtype_into_bits (bt_subtype t))) as [Q|Q].
  - exists true. split; [|tauto]. cbn [In] in I. repeat destruct I as [<-|I]; try reflexivity. contradiction.
  - exists false. split; [reflexivity|]. split; [discriminate|intros [_ X]; contradiction].
Qed.
Lemma action_matches_spec {A B} (t : BodyType A B) prefix : ActionMatch t prefix ->
  forall g, wf_bytes g -> 10 <= length g ->
  exists b, gf_matches (mgmt_kind t) g = Ok b /\ (b = true <-> is_action prefix g).
Proof.
  intros [Es AM] g W L. unfold gf_matches. rewrite gf_fcf_ok by exact L. cbn [rbind]. destruct (gf_type g W L) as [-> _].
  pose proof (type_bits_lt g) as Ht. pose proof (subtype_bits_lt g) as Hs. unfold is_action, is_mgmt.
  assert (frame_type_bits g = 0 \/ frame_type_bits g = 1 \/ frame_type_bits g = 2 \/ frame_type_bits g = 3)%N as [E|[E|[E|E]]] by lia;
    rewrite E; cbn [type_of_bits fk_type mgmt_kind]; try (exists false; split; [reflexivity|]; split; [discriminate|intros [[X _] _]; discriminate]).
  rewrite Es. rewrite mgmt_eqb_bits by (auto; cbn; tauto). change (mgmt_subtype_into_bits Mg_Action) with 13%N.
  destruct (N.eqb_spec (frame_subtype_bits g) 13) as [Q|Q].
  - pose proof (rd_action_frame g W L E) as R. destruct (mgmt_body g) as [|b rest] eqn:Eb.
    + destruct R as [e ->]. exists false. split; [reflexivity|]. split; [discriminate|intros (_ & X & _); congruence].
    + destruct R as [h ->]. destruct (AM b rest) as (x & _ & M & X & _). cbn [fk_action_matches mgmt_kind]. exists x. split; [exact M|].
      rewrite X. split; [intros Y; split; [auto|]; split; [discriminate|exact Y]|tauto].
  - exists false. split; [reflexivity|]. split; [discriminate|intros [[_ X] _]; contradiction].
Qed.
Lemma type_matches_spec g : wf_bytes g -> 10 <= length g ->
  (exists b, gf_matches data_kind g = Ok b /\ (b = true <-> is_type 2 g)) /\
  (exists b, gf_matches ctrl_kind g = Ok b /\ (b = true <-> is_type 1 g)).
Proof.
  intros W L. unfold gf_matches. rewrite gf_fcf_ok by exact L. cbn [rbind]. destruct (gf_type g W L) as [-> _].
  pose proof (type_bits_lt g) as Ht. unfold is_type.
  assert (frame_type_bits g = 0 \/ frame_type_bits g = 1 \/ frame_type_bits g = 2 \/ frame_type_bits g = 3)%N as [E|[E|[E|E]]] by lia;
    rewrite E; cbn [type_of_bits fk_type data_kind ctrl_kind]; split; eexists; (split; [reflexivity|]); split; (discriminate || reflexivity).
Qed.
Lemma kinds_match k P g : In (k, P) (raw_kind :: kinds) -> wf_bytes g -> 10 <= length g ->
  exists b, gf_matches k g = Ok b /\ (b = true <-> P g).
Proof.
  intros I W L. unfold kinds, raw_kind in I. cbn [In] in I.
  repeat (destruct I as [I|I]; [injection I as <- <-|]); try contradiction;
  first [ exact (action_matches_spec _ _ raw_action_match g W L) | exact (action_matches_spec _ _ vendor_match g W L)
        | exact (action_matches_spec _ _ open_match g W L) | exact (action_matches_spec _ _ confirm_match g W L)
        | exact (action_matches_spec _ _ close_match g W L)
        | apply (proj1 (type_matches_spec g W L)) | apply (proj2 (type_matches_spec g W L))
        | apply matches_spec; [cbn; tauto|exact W|exact L] ].
Qed.
Lemma kinds_exclusive i j k P k' P' g : nth_error kinds i = Some (k, P) -> nth_error kinds j = Some (k', P') -> P g -> P' g -> i = j.
Proof.
  intros I J HP HP'.
  assert (Li : i < 14) by (apply (proj1 (nth_error_Some kinds _)); congruence).
  assert (Lj : j < 14) by (apply (proj1 (nth_error_Some kinds _)); congruence).
  destruct i as [|[|[|[|[|[|[|[|[|[|[|[|[|[|i]]]]]]]]]]]]]]; [..|exfalso; lia]; injection I as <- <-;
  destruct j as [|[|[|[|[|[|[|[|[|[|[|[|[|[|j]]]]]]]]]]]]]]; try (exfalso; lia); injection J as <- <-; try reflexivity; exfalso;
  unfold is_mgmt, is_action, is_type in *; unfold is_mgmt in *;
  repeat match goal with H : _ /\ _ |- _ => destruct H | H : exists _, _ |- _ => destruct H end; try congruence;
  match goal with H1 : mgmt_body g = ?a, H2 : mgmt_body g = ?b |- _ => rewrite H1 in H2; discriminate end.
Qed.
End Facts.
