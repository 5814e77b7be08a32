(** Proofs about changing fields of frames in place: writing. *)
From Verif Require Import Base BaseFacts SpecBase Bits BitsFacts Layouts Enums Crc Common SpecCommon CommonFacts Elements SpecElementTypes Mgmt SpecMgmt MgmtFacts Data SpecData DataFacts DataFacts2
  SpecPatch PatchFacts.

Section Patch.
Context {cfg : Cfg}.

Lemma end_bad_shift k off len : end_bad (k + off) (k + len) = end_bad off len.
Proof.
  unfold end_bad. destruct strict_end; [destruct (Nat.leb_spec (k + len) (k + off)), (Nat.leb_spec len off)|
    destruct (Nat.ltb_spec (k + len) (k + off)), (Nat.ltb_spec len off)]; auto; lia.
Qed.
Lemma gwrite_shift w pre rest off : gwrite w (pre ++ rest) (length pre + off) = outcome_map (fun '(b, n) => (pre ++ b, length pre + n)) (gwrite w rest off).
Proof.
  unfold gwrite. rewrite app_length, end_bad_shift. destruct (end_bad off (length rest)); [reflexivity|].
  rewrite <- skipn_skipn_add, skipn_app_exact by reflexivity. rewrite firstn_app_2. destruct (w (skipn off rest)) as [[b n]| |]; try reflexivity.
  cbn [outcome_map]. rewrite <- app_assoc, Nat.add_assoc. reflexivity.
Qed.
Lemma wseq_shift ws : forall pre rest off, wseq_from ws (pre ++ rest) (length pre + off) = outcome_map (fun '(b, n) => (pre ++ b, length pre + n)) (wseq_from ws rest off).
Proof.
  induction ws as [|w ws IH]; intros pre rest off; cbn [wseq_from]; [reflexivity|]. rewrite gwrite_shift.
  destruct (gwrite w rest off) as [[b n]| |]; cbn [outcome_map rbind]; try reflexivity. apply IH.
Qed.
Lemma wseq_shift0 ws pre rest : wseq_from ws (pre ++ rest) (length pre) = outcome_map (fun '(b, n) => (pre ++ b, length pre + n)) (wseq_from ws rest 0).
Proof. rewrite <- (Nat.add_0_r (length pre)) at 1. apply wseq_shift. Qed.
(** the error of writing strings of the given lengths into a buffer *)
Fixpoint lens_err (ns : list nat) (len : nat) : option serr :=
  match ns with
  | [] => None
  | n :: ns' => if end_bad 0 len then Some BadOffset else if len <? n then Some TooBig else lens_err ns' (len - n)
  end.
Lemma wseq_strings xs : forall rest, wseq_from (map wr_bytes xs) rest 0 =
  match lens_err (map (@length N) xs) (length rest) with Some e => Err e | None => Ok (concat xs ++ skipn (length (concat xs)) rest, length (concat xs)) end.
Proof.
  induction xs as [|x xs IH]; intros rest; [reflexivity|]. cbn [map wseq_from lens_err]. unfold gwrite. destruct (end_bad 0 (length rest)); [reflexivity|]. cbn [skipn firstn app].
  unfold wr_bytes at 1. destruct (Nat.ltb_spec (length rest) (length x)) as [L|L]; [reflexivity|]. cbn [rbind Nat.add].
  rewrite wseq_shift0, IH. rewrite skipn_length.
  destruct (lens_err _ _); [reflexivity|]. cbn [outcome_map concat]. rewrite app_length, <- app_assoc, skipn_skipn_add, Nat.add_comm. reflexivity.
Qed.
Lemma write_head x hs tl buf : 0 < length (concat hs) ->
  wseq_from ([wr_bytes x; wseq (map wr_bytes hs)] ++ tl) buf 0 =
  match (match lens_err [length x] (length buf) with Some e => Some e | None =>
         if end_bad 0 (length buf - length x) then Some BadOffset else lens_err (map (@length N) hs) (length buf - length x) end) with
  | Some e => Err e
  | None => let head := x ++ concat hs in outcome_map (fun '(b, n) => (head ++ b, length head + n)) (wseq_from tl (skipn (length head) buf) 0)
  end.
Proof.
  intros P. rewrite wseq_from_app. change [wr_bytes x; wseq (map wr_bytes hs)] with (map wr_bytes [x] ++ [wseq (map wr_bytes hs)]).
  rewrite wseq_from_app, wseq_strings. change (map (@length N) [x]) with [length x]. destruct (lens_err [length x] (length buf)); [reflexivity|]. cbn [rbind].
  cbn [concat]. rewrite app_nil_r. rewrite wseq_shift0. cbn [wseq_from]. unfold gwrite. rewrite skipn_length.
  destruct (end_bad 0 (length buf - length x)); [reflexivity|]. cbn [skipn firstn app]. unfold wseq. rewrite wseq_strings, skipn_length.
  destruct (lens_err (map (@length N) hs) (length buf - length x)); [reflexivity|]. cbn [rbind outcome_map Nat.add]. cbv zeta.
  rewrite app_assoc. rewrite <- app_length. rewrite wseq_shift0.
  rewrite skipn_skipn_add. rewrite app_length. reflexivity.
Qed.

(** with the frame check sequence *)
Lemma finish head b n (fcs : bool) :
  (if fcs then attach_fcs (head ++ b) (length head + n) else Ok (head ++ b, length head + n)) =
  if fcs then
    (if n <=? length b then
       if end_bad n (length b) then Err BadOffset else if length b - n <? 4 then Err TooBig
       else Ok (head ++ firstn n b ++ le_bytes 4 (crc32 (head ++ firstn n b)) ++ skipn (n + 4) b, length head + n + 4)
     else Panic)
  else Ok (head ++ b, length head + n).
Proof.
  destruct fcs; [|reflexivity]. unfold attach_fcs, slice_to. rewrite app_length.
  destruct (Nat.leb_spec (length head + n) (length head + length b)), (Nat.leb_spec n (length b)); try lia; [|reflexivity]. cbn [rbind].
  rewrite firstn_app_2, gwrite_shift. unfold gwrite. destruct (end_bad n (length b)); [reflexivity|].
  unfold wr_le, wr_bytes. rewrite skipn_length, le_bytes_length. destruct (length b - n <? 4); [reflexivity|]. cbn [outcome_map].
  rewrite skipn_skipn_add, Nat.add_assoc. reflexivity.
Qed.
Lemma sent_changed f head head' r (fcs : bool) : length head = length head' -> (forall q, f (head ++ q) = head' ++ q) ->
  (let fin h := '(buf, off) <- outcome_map (fun '(b, n) => (h ++ b, length h + n)) r ;; if fcs then attach_fcs buf off else Ok (buf, off) in
   fin head' = outcome_map (revise fcs f) (fin head)).
Proof.
  intros L C. cbv zeta. destruct r as [[b n]| |]; cbn [outcome_map rbind]; try reflexivity. rewrite !finish. rewrite <- L.
  destruct fcs.
  - destruct (n <=? length b) eqn:E; [|reflexivity]. destruct (end_bad n (length b)); [reflexivity|]. destruct (length b - n <? 4); [reflexivity|].
    cbn [outcome_map revise]. apply Nat.leb_le in E.
    replace (length head + n + 4 - 4) with (length (head ++ firstn n b)) by (rewrite app_length, firstn_length; lia).
    rewrite (app_assoc head (firstn n b)), firstn_app_exact by reflexivity. rewrite C. cbn [enc_frame].
    replace (skipn (length head + n + 4) ((head ++ firstn n b) ++ le_bytes 4 (crc32 (head ++ firstn n b)) ++ skipn (n + 4) b)) with (skipn (n + 4) b).
    + rewrite <- !app_assoc. reflexivity.
    + rewrite app_assoc, skipn_app_exact; [reflexivity|]. rewrite !app_length, le_bytes_length, firstn_length. lia.
  - cbn [outcome_map revise enc_frame]. rewrite Nat.sub_0_r, firstn_app_2, C, <- app_assoc. do 3 f_equal.
    rewrite <- skipn_skipn_add, skipn_app_exact by reflexivity. now rewrite firstn_skipn.
Qed.

(** management frames *)
Definition mgmt_strings (h : MgmtHeader) : list bytes :=
  [le_bytes 2 (mh_duration h); mh_ra h; mh_ta h; mh_bssid h; le_bytes 2 (mh_seq h)] ++ match mh_ht h with Some ht => [ht] | None => [] end.
Lemma mgmt_strings_eq h : wr_mgmt_header h = wseq (map wr_bytes (mgmt_strings h)).
Proof. unfold wr_mgmt_header, mgmt_strings. destruct (mh_ht h); reflexivity. Qed.
Lemma change_mgmt_ok c h : ok_mgmt_header h -> change_ok c -> same_mgmt_fields c (mh_flags h) -> ok_mgmt_header (change_mgmt c h).
Proof.
  intros (F & D & R & T & B & Q & H) C S. destruct h as [f d ra ta bssid s ht]. cbn [mh_flags mh_duration mh_ra mh_ta mh_bssid mh_seq mh_ht] in *.
  destruct c; cbn [change_mgmt change_ok same_mgmt_fields] in *; unfold ok_mgmt_header; cbn [mh_flags mh_duration mh_ra mh_ta mh_bssid mh_seq mh_ht]; auto 10.
  rewrite S. auto 10.
Qed.
Lemma mgmt_head c h b0 : ok_mgmt_header h -> change_ok c -> (b0 < 256)%N ->
  let head h := [b0; mh_flags h] ++ concat (mgmt_strings h) in
  map (@length N) (mgmt_strings (change_mgmt c h)) = map (@length N) (mgmt_strings h) /\
  length (head h) = length (head (change_mgmt c h)) /\ forall q, change_frame c (head h ++ q) = head (change_mgmt c h) ++ q.
Proof.
  intros (F & D & R & T & B & Q & _) C B0. destruct h as [f d ra ta bssid s ht]. cbn [mh_flags mh_duration mh_ra mh_ta mh_bssid mh_seq mh_ht] in *.
  destruct R as [R _], T as [T _], B as [B _].
  assert (G : forall h q, [b0; mh_flags h] ++ concat (mgmt_strings h) ++ q =
    glue (mkP b0 (mh_flags h) (le_bytes 2 (mh_duration h)) (mh_ra h) (mh_ta h) (mh_bssid h) (le_bytes 2 (mh_seq h)) (match mh_ht h with Some ht => ht | None => [] end ++ q))).
  { intros h q. unfold glue, mgmt_strings. cbn [p_c0 p_c1 p_d p_a1 p_a2 p_a3 p_s p_rest]. rewrite concat_app. cbn [concat]. rewrite <- !app_assoc.
    destruct (mh_ht h); cbn [concat app]; rewrite ?app_nil_r; reflexivity. }
  assert (M : map (@length N) (mgmt_strings (change_mgmt c (mkMH f d ra ta bssid s ht))) = map (@length N) (mgmt_strings (mkMH f d ra ta bssid s ht))).
  { destruct c as [x|x|x|x|x|x]; unfold mgmt_strings; cbn [change_mgmt mh_flags mh_duration mh_ra mh_ta mh_bssid mh_seq mh_ht map app change_ok] in *;
      rewrite ?le_bytes_length; try reflexivity; destruct C as [C _]; rewrite C, ?R, ?T, ?B; reflexivity. }
  cbv zeta. split; [exact M|]. split.
  - rewrite !app_length. cbn [length]. f_equal. revert M. generalize (mgmt_strings (change_mgmt c (mkMH f d ra ta bssid s ht))) as l', (mgmt_strings (mkMH f d ra ta bssid s ht)) as l.
    clear. intros l' l. revert l'. induction l as [|x l IH]; intros [|y l'] M; cbn in M; try discriminate; [reflexivity|]. injection M as M1 M2.
    cbn [concat]. rewrite !app_length, M1. f_equal. now apply IH.
  - intros q. rewrite <- !app_assoc, (G (change_mgmt c (mkMH f d ra ta bssid s ht))).
    etransitivity; [apply (f_equal (change_frame c)); exact (G (mkMH f d ra ta bssid s ht) q)|]. rewrite change_glue; [|exact C|].
    + destruct c; reflexivity.
    + unfold ok_pieces. cbn. auto 10.
Qed.
Lemma mgmt_written {W R} (t : BodyType W R) c h w (fcs : bool) buf : ok_mgmt_header h -> change_ok c -> same_mgmt_fields c (mh_flags h) ->
  canonical_frame_type (FT_Management (bt_subtype t)) ->
  wr_mgmt t (change_mgmt c h) w fcs buf = outcome_map (change_sent fcs c) (wr_mgmt t h w fcs buf).
Proof.
  intros H C S K. set (b0 := (16 * mgmt_subtype_into_bits (bt_subtype t))%N). assert (B0 : (b0 < 256)%N) by (destruct K as [K _]; unfold b0; lia).
  assert (E : forall h, ok_mgmt_header h -> wr_mgmt t h w fcs buf =
    ('(buf, off) <- wseq_from ([wr_bytes [b0; mh_flags h]; wseq (map wr_bytes (mgmt_strings h))] ++ [bt_write t w]) buf 0 ;; if fcs then attach_fcs buf off else Ok (buf, off))).
  { intros h' (F & _). unfold wr_mgmt. rewrite <- mgmt_strings_eq. unfold wr_le. rewrite fcf_bytes by assumption. reflexivity. }
  rewrite !E by (try apply change_mgmt_ok; assumption). destruct (mgmt_head c h b0 H C B0) as (M & L & Q).
  rewrite !write_head by (unfold mgmt_strings; rewrite concat_app; cbn [concat]; rewrite !app_length, le_bytes_length; lia). rewrite M. change (length [b0; mh_flags (change_mgmt c h)]) with (length [b0; mh_flags h]).
  destruct (match lens_err [length [b0; mh_flags h]] (length buf) with Some e => _ | None => _ end); [reflexivity|]. cbv zeta in L, Q |- *. rewrite <- L at 1.
  exact (sent_changed (change_frame c) _ _ _ fcs L Q).
Qed.

(** data frames *)
Definition opt_strings (o : option bytes) : list bytes := match o with Some b => [b] | None => [] end.
Definition data_strings (h : DataHeader) : list bytes :=
  [le_bytes 2 (dh_duration h); dh_a1 h; dh_a2 h; dh_a3 h; le_bytes 2 (dh_seq h)] ++ opt_strings (dh_a4 h) ++ opt_strings (dh_qos h) ++ opt_strings (dh_ht h).
Lemma data_strings_eq h : wr_data_header h = wseq (map wr_bytes (data_strings h)).
Proof. unfold wr_data_header, data_strings. destruct (dh_a4 h), (dh_qos h), (dh_ht h); reflexivity. Qed.
Lemma change_subtype c h : dh_subtype (change_data c h) = dh_subtype h.
Proof. destruct c, h; reflexivity. Qed.
Lemma change_data_ok c h : ok_data_header h -> change_ok c -> same_data_fields c (dh_flags h) -> ok_data_header (change_data c h).
Proof.
  intros (K & F & D & R & T & B & Q & H) C S. unfold ok_data_header, subtype_number in *. rewrite change_subtype.
  destruct h as [t f d a1 a2 a3 s a4 q ht]. cbn [dh_subtype dh_flags dh_duration dh_a1 dh_a2 dh_a3 dh_seq dh_a4 dh_qos dh_ht] in *.
  destruct c; cbn [change_data change_ok same_data_fields dh_subtype dh_flags dh_duration dh_a1 dh_a2 dh_a3 dh_seq dh_a4 dh_qos dh_ht] in *; auto 12.
  destruct S as [-> ->]. auto 12.
Qed.
Lemma data_head c h b0 : ok_data_header h -> change_ok c -> (b0 < 256)%N ->
  let head h := [b0; dh_flags h] ++ concat (data_strings h) in
  map (@length N) (data_strings (change_data c h)) = map (@length N) (data_strings h) /\
  length (head h) = length (head (change_data c h)) /\ forall q, change_frame c (head h ++ q) = head (change_data c h) ++ q.
Proof.
  intros (_ & F & D & R & T & B & _) C B0. destruct h as [t f d a1 a2 a3 s a4 qo ht].
  cbn [dh_subtype dh_flags dh_duration dh_a1 dh_a2 dh_a3 dh_seq dh_a4 dh_qos dh_ht] in *.
  destruct R as [R _], T as [T _], B as [B _].
  assert (G : forall h q, [b0; dh_flags h] ++ concat (data_strings h) ++ q =
    glue (mkP b0 (dh_flags h) (le_bytes 2 (dh_duration h)) (dh_a1 h) (dh_a2 h) (dh_a3 h) (le_bytes 2 (dh_seq h))
      (concat (opt_strings (dh_a4 h) ++ opt_strings (dh_qos h) ++ opt_strings (dh_ht h)) ++ q))).
  { intros h q. unfold glue, data_strings. cbn [p_c0 p_c1 p_d p_a1 p_a2 p_a3 p_s p_rest]. rewrite concat_app. cbn [concat]. rewrite <- !app_assoc. reflexivity. }
  assert (M : map (@length N) (data_strings (change_data c (mkDH t f d a1 a2 a3 s a4 qo ht))) = map (@length N) (data_strings (mkDH t f d a1 a2 a3 s a4 qo ht))).
  { destruct c as [x|x|x|x|x|x]; unfold data_strings; cbn [change_data dh_subtype dh_flags dh_duration dh_a1 dh_a2 dh_a3 dh_seq dh_a4 dh_qos dh_ht map app change_ok] in *;
      rewrite ?le_bytes_length; try reflexivity; destruct C as [C _]; rewrite C, ?R, ?T, ?B; reflexivity. }
  cbv zeta. split; [exact M|]. split.
  - rewrite !app_length. cbn [length]. f_equal. revert M. generalize (data_strings (change_data c (mkDH t f d a1 a2 a3 s a4 qo ht))) as l', (data_strings (mkDH t f d a1 a2 a3 s a4 qo ht)) as l.
    clear. intros l' l. revert l'. induction l as [|x l IH]; intros [|y l'] M; cbn in M; try discriminate; [reflexivity|]. injection M as M1 M2.
    cbn [concat]. rewrite !app_length, M1. f_equal. now apply IH.
  - intros q. rewrite <- !app_assoc, (G (change_data c (mkDH t f d a1 a2 a3 s a4 qo ht))).
    etransitivity; [apply (f_equal (change_frame c)); exact (G (mkDH t f d a1 a2 a3 s a4 qo ht) q)|]. rewrite change_glue; [|exact C|].
    + destruct c; reflexivity.
    + unfold ok_pieces. cbn. auto 10.
Qed.
Lemma data_written c h p (fcs : bool) buf : ok_data_header h -> change_ok c -> same_data_fields c (dh_flags h) ->
  wr_data (change_data c h, p) fcs buf = outcome_map (change_sent fcs c) (wr_data (h, p) fcs buf).
Proof.
  intros H C S. set (b0 := (4 * 2 + 16 * subtype_number h)%N).
  assert (B0 : (b0 < 256)%N) by (destruct H as [[K _] _]; unfold b0, subtype_number; lia).
  set (tl := match p with Some c => [c_write c] | None => [] end).
  assert (E : forall h', dh_subtype h' = dh_subtype h -> ok_data_header h' -> wr_data (h', p) fcs buf =
    ('(buf, off) <- wseq_from ([wr_bytes [b0; dh_flags h']; wseq (map wr_bytes (data_strings h'))] ++ tl) buf 0 ;; if fcs then attach_fcs buf off else Ok (buf, off))).
  { intros h' T O. destruct (data_fcf_ok h' O) as (x & X & _ & FB & _). rewrite (wr_data_eq h' p fcs x buf X). unfold wr_le. rewrite FB, <- data_strings_eq.
    unfold subtype_number in *. rewrite T. reflexivity. }
  rewrite !E by (try apply change_data_ok; auto using change_subtype). destruct (data_head c h b0 H C B0) as (M & L & Q).
  rewrite !write_head by (unfold data_strings; rewrite concat_app; cbn [concat]; rewrite !app_length, le_bytes_length; lia). rewrite M. change (length [b0; dh_flags (change_data c h)]) with (length [b0; dh_flags h]).
  destruct (match lens_err [length [b0; dh_flags h]] (length buf) with Some e => _ | None => _ end); [reflexivity|]. cbv zeta in L, Q |- *. rewrite <- L at 1.
  exact (sent_changed (change_frame c) _ _ _ fcs L Q).
Qed.

(** beacons: the timestamp *)
Lemma mgmt_head_length h b0 : ok_mgmt_header h -> length ([b0; mh_flags h] ++ concat (mgmt_strings h)) = if N.testbit (mh_flags h) 7 then 28 else 24.
Proof.
  intros (F & D & (R & _) & (T & _) & (B & _) & Q & H). unfold mgmt_strings. rewrite concat_app. cbn [concat]. rewrite !app_length, !le_bytes_length, R, T, B.
  destruct (mh_ht h) as [ht|].
  - destruct H as (-> & L & _). cbn [concat app length]. rewrite app_nil_r, L. reflexivity.
  - rewrite H. reflexivity.
Qed.
Lemma time_written s h w time (fcs : bool) buf : ok_mgmt_header h -> canonical_frame_type (FT_Management s) ->
  wr_mgmt (beacon_like s) h (set_time time w) fcs buf = outcome_map (revise fcs (change_time time)) (wr_mgmt (beacon_like s) h w fcs buf).
Proof.
  intros H K. set (b0 := (16 * mgmt_subtype_into_bits s)%N).
  set (tl := [wr_le 2 (bb_interval w); wr_le 2 (bb_capabilities w); c_write (bb_elements w)]).
  set (head := [b0; mh_flags h] ++ concat (mgmt_strings h)).
  assert (E : forall x, let w := set_time x w in wr_mgmt (beacon_like s) h w fcs buf =
    match (match lens_err [length [b0; mh_flags h]] (length buf) with Some e => Some e | None =>
         if end_bad 0 (length buf - length [b0; mh_flags h]) then Some BadOffset else lens_err (map (@length N) (mgmt_strings h)) (length buf - length [b0; mh_flags h]) end) with
    | Some e => Err e
    | None => let rest := skipn (length head) buf in
        if end_bad 0 (length rest) then Err BadOffset else
        match lens_err [8] (length rest) with
        | Some e => Err e
        | None => let h' := head ++ le_bytes 8 x in
            '(buf, off) <- outcome_map (fun '(b, n) => (h' ++ b, length h' + n)) (wseq_from tl (skipn (length h') buf) 0) ;;
            if fcs then attach_fcs buf off else Ok (buf, off)
        end
    end).
  { intros x w'. unfold wr_mgmt. assert (F : u8 (mh_flags h)) by (destruct H as [F _]; exact F).
    assert (FB : wr_le 2 (fcf_make (FT_Management (bt_subtype (beacon_like s))) (mh_flags h)) = wr_bytes [b0; mh_flags h])
      by (unfold wr_le; rewrite fcf_bytes by assumption; reflexivity). rewrite FB, mgmt_strings_eq. clear FB.
    unfold wseq at 1. change [wr_bytes [b0; mh_flags h]; wseq (map wr_bytes (mgmt_strings h)); bt_write (beacon_like s) w'] with
      ([wr_bytes [b0; mh_flags h]; wseq (map wr_bytes (mgmt_strings h))] ++ [bt_write (beacon_like s) w']).
    rewrite write_head by (unfold mgmt_strings; rewrite concat_app; cbn [concat]; rewrite !app_length, le_bytes_length; lia).
    destruct (match lens_err [length [b0; mh_flags h]] (length buf) with Some e => _ | None => _ end); [reflexivity|]. cbv zeta. fold head.
    set (rest := skipn (length head) buf). cbn [wseq_from]. unfold gwrite at 1. destruct (end_bad 0 (length rest)) eqn:EB; [reflexivity|]. cbn [skipn firstn app].
    change (bt_write (beacon_like s) w' rest) with (wseq_from (map wr_bytes [le_bytes 8 x] ++ tl) rest 0).
    rewrite wseq_from_app, wseq_strings. change (map (@length N) [le_bytes 8 x]) with [length (le_bytes 8 x)]. rewrite le_bytes_length.
    destruct (lens_err [8] (length rest)); [reflexivity|]. cbn [rbind concat]. rewrite app_nil_r, wseq_shift0. rewrite app_length.
    unfold rest. rewrite skipn_skipn_add. destruct (wseq_from tl (skipn (length head + length (le_bytes 8 x)) buf) 0) as [[b n]| |]; cbn [outcome_map rbind]; try reflexivity.
    rewrite <- app_assoc, <- Nat.add_assoc. reflexivity. }
  pose proof (E time) as E1. pose proof (E (bb_timestamp w)) as E0. cbv zeta in E1, E0.
  replace (set_time (bb_timestamp w) w) with w in E0 by (destruct w; reflexivity). rewrite E1, E0. clear E E0 E1.
  destruct (match lens_err [length [b0; mh_flags h]] (length buf) with Some e => _ | None => _ end); [reflexivity|].
  destruct (end_bad 0 (length (skipn (length head) buf))); [reflexivity|]. destruct (lens_err [8] (length (skipn (length head) buf))); [reflexivity|].
  rewrite !(app_length head), !le_bytes_length.
  pose proof (sent_changed (change_time time) (head ++ le_bytes 8 (bb_timestamp w)) (head ++ le_bytes 8 time)
    (wseq_from tl (skipn (length head + 8) buf) 0) fcs) as SC. cbv zeta in SC. rewrite !(app_length head), !le_bytes_length in SC. apply SC; [reflexivity|].
  intros q. unfold change_time. rewrite <- !app_assoc.
  replace (nth 1 (head ++ le_bytes 8 (bb_timestamp w) ++ q) 0%N) with (mh_flags h) by reflexivity.
  apply patch_app; [now apply mgmt_head_length|]. now rewrite !le_bytes_length.
Qed.
Lemma beacon_split x q : length x = 8 ->
  rd_beacon (x ++ q) = 
  ('(interval, off) <- gread (rd_le 2) q 0 ;; '(capabilities, off) <- gread (rd_le 2) q off ;; '(elements, off) <- gread rd_elements q off ;;
   Ok (mkBeacon (le_val x) interval capabilities elements, 8 + off)).
Proof.
  intros L. unfold rd_beacon. rewrite (gread_first (rd_le 8) x q 8 (le_val x)); [|exact L|lia|now apply rd_le_piece]. cbn [rbind].
  rewrite (gread_app (rd_le 2) x q 8) by auto. destruct (gread (rd_le 2) q 0) as [[i o]| |]; cbn [rbind outcome_map]; try reflexivity.
  rewrite (gread_shift (rd_le 2) x q 8) by auto. destruct (gread (rd_le 2) q o) as [[c o2]| |]; cbn [rbind outcome_map]; try reflexivity.
  rewrite (gread_shift rd_elements x q 8) by auto. destruct (gread rd_elements q o2) as [[e o3]| |]; reflexivity.
Qed.
Lemma beacon_time x y q k pre : length x = 8 -> le_val x = k -> length y = 8 ->
  gread rd_beacon (pre ++ x ++ q) (length pre) = outcome_map (fun '(b, n) => (set_time k b, n)) (gread rd_beacon (pre ++ y ++ q) (length pre)).
Proof.
  intros L <- L'. rewrite (gread_app rd_beacon pre (x ++ q)), (gread_app rd_beacon pre (y ++ q)) by reflexivity. unfold gread at 1 2. cbn [skipn]. rewrite !app_length, L, L'. destruct (end_bad 0 (8 + length q)); [reflexivity|].
  rewrite !beacon_split by assumption. destruct (gread (rd_le 2) q 0) as [[i o]| |]; cbn [rbind outcome_map]; try reflexivity.
  destruct (gread (rd_le 2) q o) as [[c o2]| |]; cbn [rbind outcome_map]; try reflexivity.
  destruct (gread rd_elements q o2) as [[e o3]| |]; reflexivity.
Qed.
Lemma time_read s time mpdu (fcs : bool) : wf_bytes mpdu -> u64 time -> (if N.testbit (nth 1 mpdu 0%N) 7 then 36 else 32) <= length mpdu ->
  rd_mgmt (beacon_like s) fcs (enc_frame fcs (change_time time mpdu)) =
  outcome_map (fun '((h, r), n) => ((h, set_time time r), n)) (rd_mgmt (beacon_like s) fcs (enc_frame fcs mpdu)).
Proof.
  intros Wm U L.
  assert (F : forall m, wf_bytes m -> rd_mgmt (beacon_like s) fcs (enc_frame fcs m) = rd_mgmt (beacon_like s) false m).
  { intros m Wf. pose proof (strip_frame fcs m Wf) as E. unfold rd_mgmt. rewrite E. reflexivity. }
  assert (U8 : le_val (le_bytes 8 time) = time) by (rewrite le_val_bytes; apply N.mod_small; exact U).
  rewrite !F; [|exact Wm|]; [|unfold change_time, patch; apply Forall_app; split; [now apply wf_firstn|apply Forall_app; split; [apply le_bytes_wf|now apply wf_skipn]]].
  assert (L24 : 24 <= length mpdu) by (destruct (N.testbit _ 7); lia).
  destruct (pieces mpdu Wm L24) as (p & -> & O). unfold change_time. rewrite nth_glue in *. destruct p as [c0 c1 d a1 a2 a3 s0 q].
  pose proof O as (W0 & W1 & Ld & L1 & L2 & L3 & Ls). cbn [p_c0 p_c1 p_d p_a1 p_a2 p_a3 p_s p_rest] in *.
  set (pre := [c0; c1] ++ d ++ a1 ++ a2 ++ a3 ++ s0). assert (Lp : length pre = 24) by (unfold pre; rewrite !app_length; cbn [length]; lia).
  assert (G : forall q, glue (mkP c0 c1 d a1 a2 a3 s0 q) = pre ++ q) by (intros q'; unfold glue, pre; cbn [p_c0 p_c1 p_d p_a1 p_a2 p_a3 p_s p_rest]; now rewrite <- !app_assoc).
  rewrite G in L |- *. rewrite app_length, Lp in L.
  assert (X : exists x y z, q = x ++ y ++ z /\ length x = (if N.testbit c1 7 then 4 else 0) /\ length y = 8).
  { destruct (split_at (if N.testbit c1 7 then 4 else 0) q) as (x & q' & -> & Lx); [destruct (N.testbit c1 7); lia|]. rewrite app_length in L.
    destruct (split_at 8 q') as (y & z & -> & Ly); [destruct (N.testbit c1 7); lia|]. exists x, y, z. auto. }
  destruct X as (x & y & z & -> & Lx & Ly).
  rewrite (app_assoc pre), patch_app; [|rewrite app_length, Lp, Lx; destruct (N.testbit c1 7); reflexivity|now rewrite le_bytes_length].
  rewrite <- !app_assoc, <- !G. rewrite !rd_mgmt_glue by exact O. unfold fcf_of. cbn [p_c0 p_c1 p_d p_a1 p_a2 p_a3 p_s p_rest].
  destruct (fcf_frame_type (le_val [c0; c1])); try reflexivity. cbv zeta. rewrite flags_second by assumption.
  destruct (flag_bits c1) as (_ & _ & -> & _). change (bt_read (beacon_like s)) with rd_beacon.
  destruct (N.testbit c1 7).
  - rewrite !(gread_first (rd_bytes 4) x _ 4 x) by (try lia; now apply rd_bytes_piece). cbn [rbind].
    pose proof (beacon_time (le_bytes 8 time) y z time x (le_bytes_length _ _) U8 Ly) as B. assert (L4 : length x = 4) by exact Lx. rewrite L4 in B. rewrite B.
    destruct (gread rd_beacon (x ++ y ++ z) 4) as [[b n]| |]; reflexivity.
  - destruct x; [|discriminate]. cbn [rbind app].
    pose proof (beacon_time (le_bytes 8 time) y z time [] (le_bytes_length _ _) U8 Ly) as B. cbn [app length] in B. rewrite B.
    destruct (gread rd_beacon (y ++ z) 0) as [[b n]| |]; reflexivity.
Qed.

(** several changes *)
Lemma mgmts_read {W R} (t : BodyType W R) cs : forall mpdu (fcs : bool), wf_bytes mpdu -> 24 <= length mpdu -> Forall change_ok cs ->
  Forall (fun c => same_mgmt_fields c (nth 1 mpdu 0%N)) cs ->
  rd_mgmt t fcs (enc_frame fcs (change_frames cs mpdu)) =
  outcome_map (fun '((h, r), n) => ((change_mgmts cs h, r), n)) (rd_mgmt t fcs (enc_frame fcs mpdu)).
Proof.
  induction cs as [|c cs IH]; intros mpdu fcs Wm L C S.
  - cbn [change_frames fold_left]. destruct (rd_mgmt t fcs (enc_frame fcs mpdu)) as [[[h r] n]| |]; reflexivity.
  - inversion C as [|? ? C1 C2]; subst. inversion S as [|? ? S1 S2]; subst. change (change_frames (c :: cs) mpdu) with (change_frames cs (change_frame c mpdu)).
    destruct (pieces mpdu Wm L) as (p & -> & O). rewrite IH.
    + rewrite mgmt_read by assumption. destruct (rd_mgmt t fcs (enc_frame fcs (glue p))) as [[[h r] n]| |]; reflexivity.
    + now apply change_wf.
    + rewrite change_glue by assumption. pose proof (change_ok_pieces c p C1 O) as (_ & _ & Ld & L1 & L2 & L3 & Ls). unfold glue. rewrite !app_length. cbn [length]. lia.
    + exact C2.
    + rewrite change_glue by assumption. rewrite nth_glue in *. destruct c as [f|x|x|x|x|x]; destruct p as [c0 c1 d a1 a2 a3 s0 q]; try exact S2.
      cbn [change_pieces p_c1 same_mgmt_fields] in *. eapply Forall_impl; [|exact S2]. intros c K. destruct c; cbn [same_mgmt_fields] in *; auto. congruence.
Qed.
Lemma datas_read cs : forall mpdu (fcs : bool), wf_bytes mpdu -> 24 <= length mpdu -> Forall change_ok cs ->
  Forall (fun c => same_data_fields c (nth 1 mpdu 0%N)) cs -> native_le = true \/ Forall (fun c => ~ is_number c) cs ->
  rd_data fcs (enc_frame fcs (change_frames cs mpdu)) =
  outcome_map (fun '((h, p), n) => ((change_datas cs h, p), n)) (rd_data fcs (enc_frame fcs mpdu)).
Proof.
  induction cs as [|c cs IH]; intros mpdu fcs Wm L C S NL.
  - cbn [change_frames fold_left]. destruct (rd_data fcs (enc_frame fcs mpdu)) as [[[h r] n]| |]; reflexivity.
  - inversion C as [|? ? C1 C2]; subst. inversion S as [|? ? S1 S2]; subst. change (change_frames (c :: cs) mpdu) with (change_frames cs (change_frame c mpdu)).
    assert (N1 : native_le = true \/ ~ is_number c) by (destruct NL as [NL|NL]; [auto|inversion NL; auto]).
    assert (N2 : native_le = true \/ Forall (fun c => ~ is_number c) cs) by (destruct NL as [NL|NL]; [auto|inversion NL; auto]).
    destruct (pieces mpdu Wm L) as (p & -> & O). rewrite IH.
    + rewrite data_read by assumption. destruct (rd_data fcs (enc_frame fcs (glue p))) as [[[h r] n]| |]; reflexivity.
    + now apply change_wf.
    + rewrite change_glue by assumption. pose proof (change_ok_pieces c p C1 O) as (_ & _ & Ld & L1 & L2 & L3 & Ls). unfold glue. rewrite !app_length. cbn [length]. lia.
    + exact C2.
    + rewrite change_glue by assumption. rewrite nth_glue in *. destruct c as [f|x|x|x|x|x]; destruct p as [c0 c1 d a1 a2 a3 s0 q]; try exact S2.
      cbn [change_pieces p_c1 same_data_fields] in *. destruct S1 as [S1 S3]. eapply Forall_impl; [|exact S2]. intros c K. destruct c; cbn [same_data_fields] in *; auto.
      destruct K as [K1 K2]. split; congruence.
    + exact N2.
Qed.
Lemma data_patch_big_endian : native_le = false -> exists mpdu h p n h', wf_bytes mpdu /\ rd_data false mpdu = Ok ((h, p), n) /\
  rd_data false (change_frame (SetSequence 0x10) mpdu) = Ok ((h', p), n) /\ dh_seq h' = 0x1000%N.
Proof.
  intros NL. exists (8 :: 0 :: 0 :: 0 :: repeat 1 18 ++ [0; 0; 7])%N. destruct cfg as [[] [] []]; try discriminate NL; do 4 eexists;
    (split; [repeat constructor|]); (split; [vm_compute; reflexivity|]); (split; [vm_compute; reflexivity|reflexivity]).
Qed.
End Patch.
