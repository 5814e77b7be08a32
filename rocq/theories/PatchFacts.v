(** Proofs about changing fields of frames in place. *)
From Verif Require Import Base BaseFacts SpecBase Bits BitsFacts Layouts Enums Crc Common SpecCommon CommonFacts SpecElementTypes Mgmt SpecMgmt MgmtFacts Data SpecData DataFacts DataFacts2 SpecPatch.

Section Patch.
Context {cfg : Cfg}.

Lemma patch_app off new pre old post : length pre = off -> length old = length new -> patch off new (pre ++ old ++ post) = pre ++ new ++ post.
Proof.
  intros <- L. unfold patch. rewrite firstn_app_exact by reflexivity. f_equal. f_equal. rewrite <- L, <- app_length, app_assoc. now rewrite skipn_app_exact.
Qed.
Lemma gread_app {A} (r : reader A) p q k : k = length p -> gread r (p ++ q) k = outcome_map (fun '(x, n) => (x, k + n)) (gread r q 0).
Proof.
  intros ->. unfold gread. rewrite app_length, skipn_app_exact by reflexivity. cbn [skipn].
  assert (E : end_bad (length p) (length p + length q) = end_bad 0 (length q)).
  { unfold end_bad. destruct strict_end; [destruct (Nat.leb_spec (length p + length q) (length p)), (Nat.leb_spec (length q) 0)|
      destruct (Nat.ltb_spec (length p + length q) (length p)), (Nat.ltb_spec (length q) 0)]; auto; lia. }
  rewrite E. destruct (end_bad 0 (length q)); [reflexivity|]. destruct (r q) as [[x n]| |]; reflexivity.
Qed.
Lemma gread_piece {A} (r : reader A) p x q k n v : k = length p -> length x = n -> 0 < n -> r (x ++ q) = Ok (v, n) -> gread r (p ++ x ++ q) k = Ok (v, k + n).
Proof.
  intros K L P R. rewrite gread_app by exact K. unfold gread. cbn [skipn]. rewrite end_bad_false; [rewrite R; reflexivity|].
  rewrite app_length. unfold slack. destruct strict_end; lia.
Qed.
Lemma gread_first {A} (r : reader A) x q n v : length x = n -> 0 < n -> r (x ++ q) = Ok (v, n) -> gread r (x ++ q) 0 = Ok (v, n).
Proof. intros L P R. exact (gread_piece r [] x q 0 n v eq_refl L P R). Qed.
Lemma rd_le_piece n x q : length x = n -> rd_le n (x ++ q) = Ok (le_val x, n).
Proof. intros L. unfold rd_le. rewrite app_length, firstn_app_exact by auto. destruct (Nat.ltb_spec (length x + length q) n); [lia|reflexivity]. Qed.
Lemma rd_bytes_piece n x q : length x = n -> rd_bytes n (x ++ q) = Ok (x, n).
Proof. intros L. unfold rd_bytes. rewrite app_length, firstn_app_exact by auto. destruct (Nat.ltb_spec (length x + length q) n); [lia|reflexivity]. Qed.

(** the common part of the headers *)
Record Pieces := mkP { p_c0 : N; p_c1 : N; p_d : bytes; p_a1 : bytes; p_a2 : bytes; p_a3 : bytes; p_s : bytes; p_rest : bytes }.
Definition glue (p : Pieces) : bytes := [p_c0 p; p_c1 p] ++ p_d p ++ p_a1 p ++ p_a2 p ++ p_a3 p ++ p_s p ++ p_rest p.
Definition ok_pieces (p : Pieces) : Prop :=
  (p_c0 p < 256)%N /\ (p_c1 p < 256)%N /\ length (p_d p) = 2 /\ length (p_a1 p) = 6 /\ length (p_a2 p) = 6 /\ length (p_a3 p) = 6 /\ length (p_s p) = 2.
Lemma split_at {A} n (l : list A) : n <= length l -> exists x q, l = x ++ q /\ length x = n.
Proof. intros L. exists (firstn n l), (skipn n l). rewrite firstn_skipn, firstn_length. split; [reflexivity|lia]. Qed.
Lemma pieces bs : wf_bytes bs -> 24 <= length bs -> exists p, bs = glue p /\ ok_pieces p.
Proof.
  intros W L. destruct bs as [|c0 [|c1 bs]]; cbn in L; try lia. inversion W as [|? ? W0 W']; subst. inversion W' as [|? ? W1 W'']; subst.
  destruct (split_at 2 bs ltac:(lia)) as (d & q & -> & Ld). rewrite app_length in L.
  destruct (split_at 6 q ltac:(lia)) as (a1 & q1 & -> & L1). rewrite app_length in L.
  destruct (split_at 6 q1 ltac:(lia)) as (a2 & q2 & -> & L2). rewrite app_length in L.
  destruct (split_at 6 q2 ltac:(lia)) as (a3 & q3 & -> & L3). rewrite app_length in L.
  destruct (split_at 2 q3 ltac:(lia)) as (s & q4 & -> & L4).
  exists (mkP c0 c1 d a1 a2 a3 s q4). split; [reflexivity|]. unfold ok_pieces. cbn. auto 10.
Qed.
Definition change_pieces (c : Change) (p : Pieces) : Pieces :=
  match c, p with
  | SetFlags f, mkP c0 _ d a1 a2 a3 s q => mkP c0 f d a1 a2 a3 s q
  | SetDuration x, mkP c0 c1 _ a1 a2 a3 s q => mkP c0 c1 (le_bytes 2 x) a1 a2 a3 s q
  | SetAddress1 x, mkP c0 c1 d _ a2 a3 s q => mkP c0 c1 d x a2 a3 s q
  | SetAddress2 x, mkP c0 c1 d a1 _ a3 s q => mkP c0 c1 d a1 x a3 s q
  | SetAddress3 x, mkP c0 c1 d a1 a2 _ s q => mkP c0 c1 d a1 a2 x s q
  | SetSequence x, mkP c0 c1 d a1 a2 a3 _ q => mkP c0 c1 d a1 a2 a3 (le_bytes 2 x) q
  end.
Lemma change_glue c p : change_ok c -> ok_pieces p -> change_frame c (glue p) = glue (change_pieces c p).
Proof.
  intros C (W0 & W1 & Ld & L1 & L2 & L3 & Ls). destruct p as [c0 c1 d a1 a2 a3 s q]. cbn [p_c0 p_c1 p_d p_a1 p_a2 p_a3 p_s p_rest] in *.
  unfold change_frame, glue. destruct c as [f|x|x|x|x|x]; cbn [change_pieces change_offset change_bytes p_c0 p_c1 p_d p_a1 p_a2 p_a3 p_s p_rest].
  - change ([c0; c1] ++ d ++ a1 ++ a2 ++ a3 ++ s ++ q) with ([c0] ++ [c1] ++ d ++ a1 ++ a2 ++ a3 ++ s ++ q). rewrite patch_app by reflexivity. reflexivity.
  - apply patch_app; [reflexivity|]. now rewrite le_bytes_length.
  - rewrite (app_assoc _ d), patch_app; [now rewrite <- app_assoc|rewrite app_length, Ld; reflexivity|]. destruct C as [C _]. now rewrite C.
  - rewrite (app_assoc _ d), (app_assoc _ a1), patch_app; [now rewrite <- !app_assoc|rewrite !app_length, Ld, L1; reflexivity|]. destruct C as [C _]. now rewrite C.
  - rewrite (app_assoc _ d), (app_assoc _ a1), (app_assoc _ a2), patch_app; [now rewrite <- !app_assoc|rewrite !app_length, Ld, L1, L2; reflexivity|]. destruct C as [C _]. now rewrite C.
  - rewrite (app_assoc _ d), (app_assoc _ a1), (app_assoc _ a2), (app_assoc _ a3), patch_app; [now rewrite <- !app_assoc|rewrite !app_length, Ld, L1, L2, L3; reflexivity|].
    now rewrite le_bytes_length.
Qed.
Lemma change_ok_pieces c p : change_ok c -> ok_pieces p -> ok_pieces (change_pieces c p).
Proof.
  intros C (W0 & W1 & Ld & L1 & L2 & L3 & Ls). destruct p as [c0 c1 d a1 a2 a3 s q]. unfold ok_pieces in *. cbn [p_c0 p_c1 p_d p_a1 p_a2 p_a3 p_s p_rest] in *.
  destruct c as [f|x|x|x|x|x]; cbn [change_pieces p_c0 p_c1 p_d p_a1 p_a2 p_a3 p_s p_rest] in *; rewrite ?le_bytes_length.
  1, 2, 6: auto 10.
  all: destruct C as [C _]; auto 10.
Qed.

(** management frames: reading *)
Definition fcf_of (p : Pieces) : N := le_val [p_c0 p; p_c1 p].
Lemma rd_mgmt_glue {W R} (t : BodyType W R) p : ok_pieces p ->
  rd_mgmt t false (glue p) =
  match fcf_frame_type (fcf_of p) with
  | FT_Management _ =>
      let mk := mkMH (fcf_flags (fcf_of p)) (le_val (p_d p)) (p_a1 p) (p_a2 p) (p_a3 p) (le_val (p_s p)) in
      '(h, off) <- (if order (fcf_flags (fcf_of p)) then '(ht, off) <- gread (rd_bytes 4) (p_rest p) 0 ;; Ok (mk (Some ht), off) else Ok (mk None, 0)) ;;
      '(body, off) <- gread (bt_read t) (p_rest p) off ;;
      Ok ((h, body), 24 + off)
  | _ => Err BadInput
  end.
Proof.
  intros (W0 & W1 & Ld & L1 & L2 & L3 & Ls). destruct p as [c0 c1 d a1 a2 a3 s q]. cbn [p_c0 p_c1 p_d p_a1 p_a2 p_a3 p_s p_rest] in *.
  unfold rd_mgmt. cbn [rbind]. unfold glue. cbn [p_c0 p_c1 p_d p_a1 p_a2 p_a3 p_s p_rest].
  rewrite (gread_first (rd_le 2) [c0; c1] _ 2 (le_val [c0; c1])); [|reflexivity|lia|apply rd_le_piece; reflexivity]. cbn [rbind Nat.add].
  unfold fcf_of. cbn [p_c0 p_c1]. destruct (fcf_frame_type (le_val [c0; c1])); try reflexivity.
  set (fl := fcf_flags (le_val [c0; c1])).
  assert (H : gread (rd_mgmt_header fl) ([c0; c1] ++ d ++ a1 ++ a2 ++ a3 ++ s ++ q) 2 =
    let mk := mkMH fl (le_val d) a1 a2 a3 (le_val s) in
    if order fl then '(ht, off) <- gread (rd_bytes 4) q 0 ;; Ok (mk (Some ht), 24 + off) else Ok (mk None, 24)).
  { rewrite gread_app by reflexivity. unfold gread at 1. cbn [skipn]. rewrite end_bad_false by (rewrite !app_length; unfold slack; destruct strict_end; lia).
    unfold rd_mgmt_header at 1.
    rewrite (gread_first (rd_le 2) d _ 2 (le_val d)); [|exact Ld|lia|now apply rd_le_piece]. cbn [rbind Nat.add].
    rewrite (gread_piece (rd_bytes 6) d a1 _ 2 6 a1); [|auto|exact L1|lia|now apply rd_bytes_piece]. cbn [rbind Nat.add].
    rewrite (app_assoc d), (gread_piece (rd_bytes 6) (d ++ a1) a2 _ 8 6 a2); [|rewrite app_length; lia|exact L2|lia|now apply rd_bytes_piece]. cbn [rbind Nat.add].
    rewrite (app_assoc (d ++ a1)), (gread_piece (rd_bytes 6) ((d ++ a1) ++ a2) a3 _ 14 6 a3); [|rewrite !app_length; lia|exact L3|lia|now apply rd_bytes_piece]. cbn [rbind Nat.add].
    rewrite (app_assoc ((d ++ a1) ++ a2)), (gread_piece (rd_le 2) (((d ++ a1) ++ a2) ++ a3) s _ 20 2 (le_val s));
      [|rewrite !app_length; lia|exact Ls|lia|now apply rd_le_piece]. cbn [rbind Nat.add].
    destruct (order fl); [|reflexivity].
    rewrite (app_assoc (((d ++ a1) ++ a2) ++ a3)), gread_app by (rewrite !app_length; lia).
    destruct (gread (rd_bytes 4) q 0) as [[ht n]| |]; reflexivity. }
  rewrite H. clear H. cbv zeta.
  assert (T : forall off, gread (bt_read t) ([c0; c1] ++ d ++ a1 ++ a2 ++ a3 ++ s ++ q) (24 + off) =
    outcome_map (fun '(x, n) => (x, 24 + n)) (gread (bt_read t) q off)).
  { intros off. replace ([c0; c1] ++ d ++ a1 ++ a2 ++ a3 ++ s ++ q) with (([c0; c1] ++ d ++ a1 ++ a2 ++ a3 ++ s) ++ q) by (now rewrite <- !app_assoc).
    assert (K : length ([c0; c1] ++ d ++ a1 ++ a2 ++ a3 ++ s) = 24) by (rewrite !app_length; cbn [length]; lia).
    generalize dependent ([c0; c1] ++ d ++ a1 ++ a2 ++ a3 ++ s). intros pre K. unfold gread.
    rewrite app_length, K. rewrite <- K, <- skipn_skipn_add, skipn_app_exact by reflexivity. rewrite K.
    assert (E : end_bad (24 + off) (24 + length q) = end_bad off (length q)).
    { unfold end_bad. destruct strict_end; reflexivity. }
    rewrite E. destruct (end_bad off (length q)); [reflexivity|]. destruct (bt_read t (skipn off q)) as [[x n]| |]; try reflexivity.
    }
  destruct (order fl).
  - destruct (gread (rd_bytes 4) q 0) as [[ht n]| |]; cbn [rbind]; try reflexivity. rewrite T. destruct (gread (bt_read t) q n) as [[x m]| |]; reflexivity.
  - cbn [rbind]. change 24 with (24 + 0) at 1. rewrite T. destruct (gread (bt_read t) q 0) as [[x m]| |]; reflexivity.
Qed.
Lemma le_val2 a b : le_val [a; b] = (a + 256 * b)%N.
Proof. cbn [le_val]. lia. Qed.
Lemma type_first a b b' : fcf_frame_type (le_val [a; b]) = fcf_frame_type (le_val [a; b']).
Proof.
  unfold fcf_frame_type, lget. rewrite fcf_pos_type, !bf_get_arith, !le_val2. f_equal. change (2 ^ 2)%N with 4%N. change (2 ^ 6)%N with 64%N.
  replace (a + 256 * b)%N with (a + (64 * b) * 4)%N by lia. replace (a + 256 * b')%N with (a + (64 * b') * 4)%N by lia. rewrite !N.div_add by lia.
  replace (64 * b)%N with (b * 64)%N by lia. replace (64 * b')%N with (b' * 64)%N by lia. rewrite !N.mod_add by lia. reflexivity.
Qed.
Lemma flags_second a b : (a < 256)%N -> (b < 256)%N -> fcf_flags (le_val [a; b]) = b.
Proof.
  intros A B. destruct (fcf_fields (le_val [a; b])) as (_ & -> & _). unfold spec_flags. rewrite le_val2. replace (256 * b)%N with (b * 256)%N by lia.
  rewrite N.div_add, (N.div_small a), N.add_0_l, N.mod_small by lia. reflexivity.
Qed.
Lemma nth_glue p : nth 1 (glue p) 0%N = p_c1 p.
Proof. reflexivity. Qed.
Lemma le_val_u16 v : u16 v -> le_val (le_bytes 2 v) = v.
Proof. intros H. rewrite le_val_bytes. apply N.mod_small. exact H. Qed.
Lemma change_wf c bs : change_ok c -> wf_bytes bs -> wf_bytes (change_frame c bs).
Proof.
  intros C W. unfold change_frame, patch. apply Forall_app. split; [now apply wf_firstn|]. apply Forall_app. split; [|now apply wf_skipn].
  destruct c; cbn [change_bytes]; cbn in C; try apply C; try apply le_bytes_wf. constructor; [exact C|constructor].
Qed.

Lemma mgmt_read {W R} (t : BodyType W R) c mpdu (fcs : bool) : wf_bytes mpdu -> 24 <= length mpdu -> change_ok c -> same_mgmt_fields c (nth 1 mpdu 0%N) ->
  rd_mgmt t fcs (enc_frame fcs (change_frame c mpdu)) =
  outcome_map (fun '((h, r), n) => ((change_mgmt c h, r), n)) (rd_mgmt t fcs (enc_frame fcs mpdu)).
Proof.
  intros Wm L C S.
  assert (F : forall m, wf_bytes m -> rd_mgmt t fcs (enc_frame fcs m) = rd_mgmt t false m).
  { intros m Wf. pose proof (strip_frame fcs m Wf) as E. unfold rd_mgmt. rewrite E. reflexivity. }
  rewrite !F; [|exact Wm|now apply change_wf]. destruct (pieces mpdu Wm L) as (p & -> & O). rewrite change_glue by assumption.
  rewrite !rd_mgmt_glue by (try apply change_ok_pieces; assumption). rewrite nth_glue in S.
  destruct p as [c0 c1 d a1 a2 a3 s q]. destruct O as (W0 & W1 & _). cbn [p_c0 p_c1] in W0, W1.
  destruct c as [f|x|x|x|x|x]; cbn [change_pieces p_c0 p_c1 p_d p_a1 p_a2 p_a3 p_s p_rest fcf_of same_mgmt_fields change_ok] in *.
  all: unfold fcf_of; cbn [p_c0 p_c1].
  1: rewrite (type_first c0 f c1), !flags_second by assumption;
     rewrite (proj1 (proj2 (proj2 (flag_bits f)))), (proj1 (proj2 (proj2 (flag_bits c1)))), S.
  all: match goal with |- context [match ?x with FT_Management _ => _ | _ => _ end] => destruct x; try reflexivity end; cbv zeta; rewrite ?le_val_u16 by assumption;
    match goal with |- context [if ?x then _ else _] => destruct x end; cbn [rbind].
  all: try (match goal with |- context [gread (rd_bytes 4) ?b 0] => destruct (gread (rd_bytes 4) b 0) as [[ht n]| |] end; cbn [rbind outcome_map]; try reflexivity);
    match goal with |- context [gread ?r ?b ?n] => destruct (gread r b n) as [[y m]| |] end; reflexivity.
Qed.

(** data frames: reading *)
Definition ne_val (b : bytes) : N := if native_le then le_val b else be_val b.
Lemma rd_ne_piece n x q : length x = n -> rd_ne n (x ++ q) = Ok (ne_val x, n).
Proof.
  intros L. unfold rd_ne, ne_val, rd_le, rd_be. destruct native_le; rewrite app_length, firstn_app_exact by auto; (destruct (Nat.ltb_spec (length x + length q) n); [lia|reflexivity]).
Qed.
Lemma gread_shift {A} (r : reader A) p q k off : k = length p -> gread r (p ++ q) (k + off) = outcome_map (fun '(x, n) => (x, k + n)) (gread r q off).
Proof.
  intros ->. unfold gread. rewrite <- skipn_skipn_add, skipn_app_exact by reflexivity. rewrite app_length.
  assert (E : end_bad (length p + off) (length p + length q) = end_bad off (length q)).
  { unfold end_bad. destruct strict_end; [destruct (Nat.leb_spec (length p + length q) (length p + off)), (Nat.leb_spec (length q) off)|
      destruct (Nat.ltb_spec (length p + length q) (length p + off)), (Nat.ltb_spec (length q) off)]; auto; lia. }
  rewrite E. destruct (end_bad off (length q)); [reflexivity|]. destruct (r (skipn off q)) as [[x n]| |]; try reflexivity. cbn [outcome_map]. do 2 f_equal. lia.
Qed.
Lemma rd_opt_shift present n p q k off : k = length p -> rd_opt present n (p ++ q) (k + off) = outcome_map (fun '(x, n) => (x, k + n)) (rd_opt present n q off).
Proof.
  intros K. unfold rd_opt. destruct present; [|reflexivity]. rewrite gread_shift by exact K. destruct (gread (rd_bytes n) q off) as [[x m]| |]; reflexivity.
Qed.
Lemma rd_data_glue p : ok_pieces p ->
  rd_data false (glue p) =
  match fcf_frame_type (fcf_of p) with
  | FT_Data st =>
      let fl := fcf_flags (fcf_of p) in
      '(a4, off) <- rd_opt (to_ds fl && from_ds fl) 6 (p_rest p) 0 ;;
      '(qos, off) <- rd_opt (data_is_qos st) 2 (p_rest p) off ;;
      '(ht, off) <- rd_opt (order fl) 4 (p_rest p) off ;;
      let h := mkDH st fl (ne_val (p_d p)) (p_a1 p) (p_a2 p) (p_a3 p) (ne_val (p_s p)) a4 qos ht in
      if data_has_payload st then payload <- slice_from (p_rest p) off ;; Ok ((h, Some payload), 24 + off) else Ok ((h, None), 24 + off)
  | _ => Err BadInput
  end.
Proof.
  intros (W0 & W1 & Ld & L1 & L2 & L3 & Ls). destruct p as [c0 c1 d a1 a2 a3 s q]. cbn [p_c0 p_c1 p_d p_a1 p_a2 p_a3 p_s p_rest] in *.
  unfold rd_data. cbn [rbind]. unfold glue. cbn [p_c0 p_c1 p_d p_a1 p_a2 p_a3 p_s p_rest]. set (c := [c0; c1]). assert (Lc : length c = 2) by reflexivity.
  unfold gread at 1. cbn [skipn]. rewrite end_bad_false by (rewrite !app_length; unfold slack; destruct strict_end; lia).
  unfold rd_data_header at 1.
  rewrite (gread_first (rd_le 2) c _ 2 (le_val c)); [|reflexivity|lia|apply rd_le_piece; reflexivity]. cbn [rbind Nat.add].
  unfold fcf_of. cbn [p_c0 p_c1]. fold c. destruct (fcf_frame_type (le_val c)) as [| |st|]; try reflexivity. cbv zeta.
  set (fl := fcf_flags (le_val c)).
  rewrite (gread_piece (rd_ne 2) c d _ 2 2 (ne_val d)); [|reflexivity|exact Ld|lia|now apply rd_ne_piece]. cbn [rbind Nat.add].
  rewrite (app_assoc c), (gread_piece (rd_bytes 6) (c ++ d) a1 _ 4 6 a1); [|rewrite app_length; lia|exact L1|lia|now apply rd_bytes_piece]. cbn [rbind Nat.add].
  rewrite (app_assoc (c ++ d)), (gread_piece (rd_bytes 6) ((c ++ d) ++ a1) a2 _ 10 6 a2); [|rewrite !app_length; lia|exact L2|lia|now apply rd_bytes_piece]. cbn [rbind Nat.add].
  rewrite (app_assoc ((c ++ d) ++ a1)), (gread_piece (rd_bytes 6) (((c ++ d) ++ a1) ++ a2) a3 _ 16 6 a3); [|rewrite !app_length; lia|exact L3|lia|now apply rd_bytes_piece].
  cbn [rbind Nat.add].
  rewrite (app_assoc (((c ++ d) ++ a1) ++ a2)), (gread_piece (rd_ne 2) ((((c ++ d) ++ a1) ++ a2) ++ a3) s _ 22 2 (ne_val s));
    [|rewrite !app_length; lia|exact Ls|lia|now apply rd_ne_piece]. cbn [rbind Nat.add].
  rewrite (app_assoc ((((c ++ d) ++ a1) ++ a2) ++ a3)). set (pre := (((((c ++ d) ++ a1) ++ a2) ++ a3) ++ s)).
  assert (K : 24 = length pre) by (unfold pre; rewrite !app_length; lia). clearbody pre.
  change 24 with (24 + 0) at 1. rewrite (rd_opt_shift _ _ pre q 24 0 K). destruct (rd_opt (to_ds fl && from_ds fl) 6 q 0) as [[a4 o4]| |]; cbn [rbind outcome_map]; try reflexivity.
  rewrite (rd_opt_shift _ _ pre q 24 o4 K). destruct (rd_opt (data_is_qos st) 2 q o4) as [[qos oq]| |]; cbn [rbind outcome_map]; try reflexivity.
  rewrite (rd_opt_shift _ _ pre q 24 oq K). destruct (rd_opt (order fl) 4 q oq) as [[ht oh]| |]; cbn [rbind outcome_map]; try reflexivity.
  cbn [dh_subtype]. destruct (data_has_payload st); [|reflexivity]. unfold slice_from. rewrite app_length.
  replace (skipn (24 + oh) (pre ++ q)) with (skipn oh q) by (rewrite K, <- skipn_skipn_add, skipn_app_exact; reflexivity).
  destruct (Nat.leb_spec (24 + oh) (length pre + length q)), (Nat.leb_spec oh (length q)); try lia; reflexivity.
Qed.
Lemma data_read c mpdu (fcs : bool) : wf_bytes mpdu -> 24 <= length mpdu -> change_ok c -> same_data_fields c (nth 1 mpdu 0%N) -> native_le = true \/ ~ is_number c ->
  rd_data fcs (enc_frame fcs (change_frame c mpdu)) =
  outcome_map (fun '((h, p), n) => ((change_data c h, p), n)) (rd_data fcs (enc_frame fcs mpdu)).
Proof.
  intros Wm L C S NL.
  assert (F : forall m, wf_bytes m -> rd_data fcs (enc_frame fcs m) = rd_data false m).
  { intros m Wf. pose proof (strip_frame fcs m Wf) as E. unfold rd_data. rewrite E. reflexivity. }
  rewrite !F; [|exact Wm|now apply change_wf]. destruct (pieces mpdu Wm L) as (p & -> & O). rewrite change_glue by assumption.
  rewrite !rd_data_glue by (try apply change_ok_pieces; assumption). rewrite nth_glue in S.
  assert (U : forall v, u16 v -> is_number c -> ne_val (le_bytes 2 v) = v).
  { intros v V I. unfold ne_val. destruct NL as [-> | NL]; [now apply le_val_u16|contradiction]. }
  destruct p as [c0 c1 d a1 a2 a3 s q]. destruct O as (W0 & W1 & _). cbn [p_c0 p_c1] in W0, W1.
  destruct c as [f|x|x|x|x|x]; cbn [change_pieces p_c0 p_c1 p_d p_a1 p_a2 p_a3 p_s p_rest fcf_of same_data_fields change_ok is_number] in *.
  all: unfold fcf_of; cbn [p_c0 p_c1].
  1: rewrite (type_first c0 f c1), !flags_second by assumption;
     destruct (flag_bits f) as (-> & -> & -> & _); destruct (flag_bits c1) as (-> & -> & -> & _); destruct S as [-> ->].
  all: match goal with |- context [match ?x with FT_Management _ => _ | _ => _ end] => destruct x as [| |st|]; try reflexivity end; cbv zeta; rewrite ?U by (exact Logic.I || assumption);
    match goal with |- context [rd_opt ?b 6 ?q ?o] => destruct (rd_opt b 6 q o) as [[a4 o4]| |]; cbn [rbind outcome_map]; try reflexivity end;
    match goal with |- context [rd_opt ?b 2 ?q ?o] => destruct (rd_opt b 2 q o) as [[qos oq]| |]; cbn [rbind outcome_map]; try reflexivity end;
    match goal with |- context [rd_opt ?b 4 ?q ?o] => destruct (rd_opt b 4 q o) as [[ht oh]| |]; cbn [rbind outcome_map]; try reflexivity end;
    match goal with |- context [data_has_payload ?st] => destruct (data_has_payload st); [|reflexivity] end;
    match goal with |- context [slice_from ?q ?o] => destruct (@slice_from serr q o) end; reflexivity.
Qed.
End Patch.
