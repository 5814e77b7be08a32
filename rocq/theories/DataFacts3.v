(** Proofs about data frame payloads: A-MSDUs and encapsulation. *)
From Verif Require Import Base BaseFacts Bits Layouts BitsFacts Enums EnumsFacts Common SpecBase SpecCommon CommonFacts Crc CrcFacts
  Elements ElementsFacts ElementTypes SpecElementTypes ElementTypesFacts StepsFacts Mgmt SpecMgmt MgmtFacts
  CryptoHeader Amsdu Data SpecData DataFacts DataFacts2.

Local Ltac lens := rewrite ?app_length, ?le_bytes_length, ?be_bytes_length, ?ne_bytes_length; cbn [length].

Lemma round4_pad n : round4 n = n + pad_length n.
Proof. unfold round4, pad_length. lia. Qed.
Lemma enc_sub_length s : ok_sub s -> length (enc_sub s) = 14 + length (sf_payload s).
Proof. intros ([A _] & [B _] & _). unfold enc_sub. lens. lia. Qed.
Lemma enc_sub_wf s : ok_sub s -> wf_bytes (enc_sub s).
Proof. intros ([_ A] & [_ B] & C & _). unfold enc_sub. rewrite !wf_bytes_app. auto using le_bytes_wf. Qed.
Lemma padded_cons s l : padded_length (s :: l) = length (enc_sub s) + pad_length (length (enc_sub s)) + padded_length l.
Proof. reflexivity. Qed.
Lemma amsdu_bytes_length l bs : amsdu_bytes l bs -> length bs = padded_length l.
Proof. induction 1 as [|s l pad rest OK Lp H IH]; [reflexivity|]. rewrite padded_cons, !app_length, IH, Lp. lia. Qed.
Lemma app_inj_len {A} (a b c d : list A) : a ++ b = c ++ d -> length a = length c -> a = c /\ b = d.
Proof.
  revert c. induction a as [|x a IH]; intros [|y c] E L; try discriminate; auto.
  injection E as -> E. injection L as L. destruct (IH c E L) as [-> ->]. auto.
Qed.

Section Facts.
Context {cfg : Cfg}.

(** ** Filling *)
Lemma Writes_fills w bs : wf_bytes bs -> Writes w bs -> Fills w (length bs) (eq bs).
Proof. intros Wb W buf _ L. exists bs. split; [reflexivity|]. split; [exact Wb|]. split; [reflexivity|]. now apply W. Qed.
Lemma Fills_weaken w n (P Q : bytes -> Prop) : (forall bs, P bs -> Q bs) -> Fills w n P -> Fills w n Q.
Proof. intros H F buf W L. destruct (F buf W L) as (bs & A & B & C & D). exists bs. auto. Qed.
Lemma Fills_ext w w' n P : (forall buf, w' buf = w buf) -> Fills w n P -> Fills w' n P.
Proof. intros H F buf W L. destruct (F buf W L) as (bs & A & B & C & D). exists bs. rewrite H. auto. Qed.
Lemma gwrite_fills w n P : Fills w n P -> forall p buf, wf_bytes buf -> n + slack <= length buf ->
  exists bs, length bs = n /\ wf_bytes bs /\ P bs /\ gwrite w (p ++ buf) (length p) = Ok ((p ++ bs) ++ skipn n buf, length (p ++ bs)).
Proof.
  intros F p buf W L. destruct (F buf W L) as (bs & A & B & C & D). exists bs. split; [exact A|]. split; [exact B|]. split; [exact C|].
  unfold gwrite. rewrite end_bad_false by (rewrite app_length; lia).
  rewrite skipn_app_exact by reflexivity. rewrite D. rewrite firstn_app_exact by reflexivity.
  rewrite <- app_assoc, app_length, A. reflexivity.
Qed.
Lemma Fills_seq w1 a w2 n P : wf_bytes a -> Writes w1 a -> Fills w2 n P ->
  Fills (fun buf => '(buf, off) <- w1 buf ;; gwrite w2 buf off) (length a + n) (fun bs => exists b, P b /\ bs = a ++ b).
Proof.
  intros Wa W1 F buf Wb L. rewrite (writes_ok _ _ W1) by lia. cbn [rbind].
  destruct (gwrite_fills w2 n P F a (skipn (length a) buf)) as (bs & A & B & C & D).
  - now apply wf_skipn.
  - rewrite skipn_length. lia.
  - exists (a ++ bs). rewrite D, skipn_skipn_add. split; [rewrite app_length; lia|]. split; [now apply wf_bytes_app|].
    split; [eauto|]. rewrite app_length, A. reflexivity.
Qed.
Lemma Fills_fcs w n P (fcs : bool) : Fills w n P ->
  Fills (fun buf => '(buf, off) <- w buf ;; if fcs then attach_fcs buf off else Ok (buf, off))
        (n + if fcs then 4 else 0) (fun bs => exists b, P b /\ wf_bytes b /\ bs = enc_frame fcs b).
Proof.
  intros F buf W L. destruct (F buf W) as (bs & A & B & C & D); [destruct fcs; lia|]. rewrite D. cbn [rbind].
  destruct fcs.
  - pose proof (attach_fcs_any bs buf) as [X _]; [lia|]. rewrite <- A in *. exists (bs ++ le_bytes 4 (crc32 bs)).
    split; [now rewrite app_length, le_bytes_length|]. split; [apply wf_bytes_app; auto using le_bytes_wf|]. split; [eauto|].
    rewrite X by lia. reflexivity.
  - exists bs. split; [lia|]. split; [exact B|]. split; [eauto|]. now rewrite Nat.add_0_r.
Qed.
Lemma data_fills h c n P fcs : ok_data_header h -> Fills (c_write c) n P ->
  Fills (wr_data (h, Some c) fcs) (dh_length h + n + if fcs then 4 else 0)
        (fun frame => exists body, P body /\ wf_bytes body /\ frame = enc_frame fcs (enc_data h body)).
Proof.
  intros H F. destruct (data_fcf_ok h H) as (x & E & B & FB & _).
  assert (WH : Writes (wseq [wr_le 2 x; wr_data_header h]) (le_bytes 2 x ++ enc_data_header h)).
  { eapply Writes_eq; [apply wseq_W; constructor; [apply wr_bytes_W|constructor; [apply (wr_data_header_T h H)|constructor]]|].
    cbn [concat]. now rewrite app_nil_r. }
  assert (Wf : wf_bytes (le_bytes 2 x ++ enc_data_header h)).
  { apply wf_bytes_app. split; [apply le_bytes_wf|now apply enc_data_header_wf]. }
  pose proof (Fills_fcs _ _ _ fcs (Fills_seq _ _ _ _ _ Wf WH F)) as X.
  assert (LH : length (le_bytes 2 x ++ enc_data_header h) = dh_length h).
  { rewrite app_length, le_bytes_length. pose proof (enc_data_header_length h H). lia. }
  rewrite LH in X. eapply Fills_ext; [|eapply Fills_weaken; [|exact X]].
  - intros buf. unfold wr_data. cbn [fst snd]. rewrite E. cbn [rbind].
    destruct (wseq [wr_le 2 x; wr_data_header h] buf) as [[b o]| |]; reflexivity.
  - cbn beta. intros bs (b & (body & Pb & ->) & Wb & ->). exists body. split; [exact Pb|].
    split; [now apply wf_bytes_app in Wb as [_ Wb]|]. f_equal. unfold enc_data. now rewrite <- FB, app_assoc.
Qed.

(** ** A-MSDU subframes: writing *)
Lemma sub_fills w s : sub_writes w s ->
  Fills (wr_subframe w) (length (enc_sub s) + pad_length (length (enc_sub s)))
        (fun bs => exists pad, length pad = pad_length (length (enc_sub s)) /\ bs = enc_sub s ++ pad).
Proof.
  intros (OK & Ed & Es & W & M).
  assert (WW : Writes (wseq [wr_bytes (sf_da w); wr_bytes (sf_sa w); wr_le 2 (N.of_nat (c_measure (sf_payload w))); c_write (sf_payload w)]) (enc_sub s)).
  { rewrite Ed, Es, M. unfold enc_sub.
    eapply Writes_eq; [apply wseq_W; do 3 (constructor; [apply wr_bytes_W|]); constructor; [exact W|constructor]|].
    cbn [concat]. now rewrite app_nil_r. }
  intros buf Wb L. unfold wr_subframe. rewrite (writes_ok _ _ WW) by lia. cbn [rbind]. rewrite round4_pad.
  set (k := length (enc_sub s)) in *. set (d := pad_length k) in *.
  exists (enc_sub s ++ firstn d (skipn k buf)).
  assert (Ld : length (firstn d (skipn k buf)) = d) by (rewrite firstn_length, skipn_length; lia).
  split; [rewrite app_length, Ld; reflexivity|].
  split; [apply wf_bytes_app; split; [now apply enc_sub_wf|now apply wf_firstn, wf_skipn]|].
  split; [eauto|]. f_equal. f_equal. rewrite <- app_assoc. f_equal.
  rewrite <- (firstn_skipn d (skipn k buf)) at 1. f_equal. now rewrite skipn_skipn_add.
Qed.
Lemma amsdu_from ws l : Forall2 sub_writes ws l -> forall p buf, wf_bytes buf -> padded_length l + slack <= length buf ->
  exists bs, length bs = padded_length l /\ wf_bytes bs /\ amsdu_bytes l bs /\
    wseq_from (map wr_subframe ws) (p ++ buf) (length p) = Ok ((p ++ bs) ++ skipn (padded_length l) buf, length (p ++ bs)).
Proof.
  induction 1 as [|w s ws l S F IH]; intros p buf Wb L.
  - exists []. cbn. rewrite !app_nil_r. repeat split; constructor.
  - cbn [map wseq_from]. unfold padded_length in L. cbn [map list_sum fold_right] in L. fold (list_sum (map (fun s => length (enc_sub s) + pad_length (length (enc_sub s))) l)) in L. fold (padded_length l) in L.
    destruct (gwrite_fills _ _ _ (sub_fills w s S) p buf Wb) as (b1 & A1 & B1 & (pad & Lp & E1) & D1); [lia|].
    rewrite D1. cbn [rbind].
    destruct (IH (p ++ b1) (skipn (length (enc_sub s) + pad_length (length (enc_sub s))) buf)) as (b2 & A2 & B2 & C2 & D2).
    { now apply wf_skipn. } { rewrite skipn_length. lia. }
    rewrite D2. exists (b1 ++ b2).
    assert (PL : padded_length (s :: l) = length (enc_sub s) + pad_length (length (enc_sub s)) + padded_length l) by reflexivity.
    split; [rewrite app_length, A1, A2, PL; reflexivity|]. split; [now apply wf_bytes_app|].
    split; [subst b1; rewrite <- app_assoc; constructor; auto; apply S|].
    rewrite PL, skipn_skipn_add, <- !app_assoc. reflexivity.
Qed.
Lemma amsdu_fills ws l : Forall2 sub_writes ws l -> Fills (c_write (c_amsdu ws)) (padded_length l) (amsdu_bytes l).
Proof.
  intros F buf Wb L. destruct (amsdu_from ws l F [] buf Wb L) as (bs & A & B & C & D). exists bs.
  split; [exact A|]. split; [exact B|]. split; [exact C|]. cbn [c_write c_amsdu]. unfold wseq. cbn [app length] in D. rewrite D, A. reflexivity.
Qed.
Lemma amsdu_measures ws l : Forall2 sub_writes ws l -> c_measure (c_amsdu ws) = list_sum (map (fun s => length (enc_sub s)) l).
Proof.
  cbn [c_measure c_amsdu]. unfold amsdu_measure. induction 1 as [|w s ws l S F IH]; [reflexivity|].
  destruct S as (OK & _ & _ & _ & M). cbn [map]. unfold list_sum in *. cbn [fold_right]. rewrite IH.
  rewrite enc_sub_length by exact OK. unfold sub_measure. rewrite M. reflexivity.
Qed.

(** ** A-MSDU subframes: reading *)
Lemma rd_subframe_ok s rest : ok_sub s -> end_ok (sf_payload s ++ rest) ->
  rd_subframe (enc_sub s ++ rest) = Ok (s, length (enc_sub s) + pad_length (length (enc_sub s))).
Proof.
  intros OK E. rewrite <- round4_pad, enc_sub_length by exact OK. destruct OK as ([La _] & [Lb _] & W & L). unfold rd_subframe, enc_sub.
  match goal with |- context [gread _ ?x 0] => pose proof (At_start x) as A end.
  rewrite <- !app_assoc in *. rstep A. rstep A. rstep A. rewrite Nat2N.id.
  rewrite (gread_at _ _ _ _ A E). rewrite (rd_bytes_R (sf_payload s) _ eq_refl rest). cbn [rbind].
  destruct s as [da sa pl]. cbn [sf_da sf_sa sf_payload] in *. do 2 f_equal. f_equal. lens. lia.
Qed.
Lemma rd_subframe_NP : NoPanic rd_subframe.
Proof. intros from. unfold rd_subframe. np. Qed.
Lemma split_sub bs : wf_bytes bs -> 14 <= length bs -> exists da sa len rest, address da /\ address sa /\ (len < 65536)%N /\
  bs = da ++ sa ++ le_bytes 2 len ++ rest /\ wf_bytes rest.
Proof.
  intros W L. destruct (split_bytes 6 bs W) as (da & r1 & Ld & Wd & -> & W1 & L1); [lia|]. rewrite app_length in L.
  destruct (split_bytes 6 r1 W1) as (sa & r2 & Ls & Ws & -> & W2 & L2); [lia|]. rewrite app_length in L.
  destruct (split_le 2 r2 W2) as (len & r3 & Hl & -> & W3 & L3); [lia|].
  exists da, sa, len, r3. repeat split; auto.
Qed.
(** every byte string starts with a subframe or does not *)
Lemma sub_cases bs : wf_bytes bs -> (exists s rest, ok_sub s /\ bs = enc_sub s ++ rest) \/ no_subframe bs.
Proof.
  intros W. destruct (le_lt_dec 14 (length bs)) as [L|L].
  - destruct (split_sub bs W L) as (da & sa & len & rest & D & S & Hl & E & Wr).
    assert (Lb : length bs = 14 + length rest).
    { rewrite E. rewrite !app_length, le_bytes_length. destruct D as [D _], S as [S _]. lia. }
    destruct (le_lt_dec (N.to_nat len) (length rest)) as [K|K].
    + left. exists (mkSub da sa (firstn (N.to_nat len) rest)), (skipn (N.to_nat len) rest).
      assert (Lk : length (firstn (N.to_nat len) rest) = N.to_nat len) by (rewrite firstn_length; lia).
      split.
      * split; [exact D|]. split; [exact S|]. cbn [sf_payload]. split; [now apply wf_firstn|]. rewrite Lk, N2Nat.id. exact Hl.
      * unfold enc_sub. cbn [sf_da sf_sa sf_payload]. rewrite Lk, N2Nat.id, E, <- !app_assoc. now rewrite firstn_skipn.
    + right. intros s rest' OK E'. pose proof (enc_sub_length s OK) as Ls.
      destruct OK as ([Da _] & [Sa _] & Wp & Lp). destruct D as [D _], S as [S _].
      rewrite E' in E. unfold enc_sub in E. rewrite <- !app_assoc in E.
      apply app_inj_len in E as [_ E]; [|lia]. apply app_inj_len in E as [_ E]; [|lia].
      apply app_inj_len in E as [E E2]; [|now rewrite !le_bytes_length].
      apply le_bytes_inj in E; [|exact Lp|exact Hl]. rewrite E', app_length, Ls in Lb. lia.
  - right. intros s rest OK ->. rewrite app_length, enc_sub_length in L by exact OK. lia.
Qed.
Lemma rd_subframe_none bs : no_subframe bs -> wf_bytes bs -> exists e, rd_subframe bs = Err e.
Proof.
  intros N W. destruct (rd_subframe bs) as [[s n]|e|] eqn:E; [|eauto|now apply rd_subframe_NP in E].
  exfalso. unfold rd_subframe in E.
  destruct (le_lt_dec 14 (length bs)) as [L|L].
  - destruct (split_sub bs W L) as (da & sa & len & rest & D & S & Hl & E' & Wr).
    assert (K : N.to_nat len <= length rest).
    { rewrite E' in E. clear -E D S Hl. destruct D as [D _], S as [S _]. revert E.
      match goal with |- context [gread _ ?x 0] => pose proof (At_start x) as A end.
      rstep A. rstep A. rstep A. intros E. cbn [rbind] in E.
      match type of E with context [gread ?r ?f ?o] => destruct (gread r f o) as [[p o']| |] eqn:G end; try discriminate.
      apply gread_inv in G as (_ & m & F & _). destruct A as [A _]. rewrite A in F. apply rd_bytes_inv in F as (_ & r & -> & <-).
      rewrite app_length. lia. }
    apply (N (mkSub da sa (firstn (N.to_nat len) rest)) (skipn (N.to_nat len) rest)).
    + split; [exact D|]. split; [exact S|]. cbn [sf_payload]. split; [now apply wf_firstn|]. rewrite firstn_length, Nat.min_l, N2Nat.id by exact K. exact Hl.
    + unfold enc_sub. cbn [sf_da sf_sa sf_payload]. rewrite firstn_length, Nat.min_l, N2Nat.id by exact K. rewrite E', <- !app_assoc. now rewrite firstn_skipn.
  - destruct (gread (rd_bytes 6) bs 0) as [[? ?]| |] eqn:G1; cbn [rbind] in E; try discriminate.
    destruct (gread (rd_bytes 6) bs n0) as [[? ?]| |] eqn:G2; cbn [rbind] in E; try discriminate.
    destruct (gread (rd_le 2) bs n1) as [[? ?]| |] eqn:G3; cbn [rbind] in E; try discriminate.
    apply (gread_size _ 6) in G1, G2; [|apply rd_bytes_inv..]. pose proof (gread_bounds _ _ _ _ _ (rd_le_IB 2) G3) as B3.
    apply (gread_size _ 2) in G3; [|apply rd_le_size]. lia.
Qed.

(** ** Iteration *)
Lemma sub_next_some bs s rest : wf_bytes bs -> ok_sub s -> bs = enc_sub s ++ rest -> end_ok (sf_payload s ++ rest) ->
  sub_next (Some bs) =
    if pad_length (length (enc_sub s)) <=? length rest
    then Ok (Some s, @Some bytes (skipn (pad_length (length (enc_sub s))) rest)) else Panic.
Proof.
  intros W OK -> E. unfold sub_next, gread.
  rewrite end_bad_false by (rewrite app_length, enc_sub_length by exact OK; pose proof slack_le; lia).
  cbn [skipn]. rewrite (rd_subframe_ok s rest OK E). rewrite Nat.add_0_l. unfold slice_from. rewrite app_length.
  destruct (Nat.leb_spec (pad_length (length (enc_sub s))) (length rest)); destruct (Nat.leb_spec (length (enc_sub s) + pad_length (length (enc_sub s))) (length (enc_sub s) + length rest)); try lia; auto.
  cbn [rbind]. rewrite <- skipn_skipn_add. rewrite skipn_app_exact by reflexivity. reflexivity.
Qed.
Lemma sub_next_none bs : wf_bytes bs -> no_subframe bs -> sub_next (Some bs) = Ok (None, None).
Proof.
  intros W N. unfold sub_next, gread. destruct (end_bad 0 (length bs)); [reflexivity|]. cbn [skipn].
  destruct (rd_subframe_none bs N W) as (e & ->). reflexivity.
Qed.
Lemma sub_next_strict s : ok_sub s -> sf_payload s = [] -> strict_end = true -> sub_next (Some (enc_sub s)) = Ok (None, None).
Proof.
  intros OK P St. unfold sub_next, gread at 1. destruct (end_bad 0 _); [reflexivity|]. cbn [skipn].
  assert (exists e, rd_subframe (enc_sub s) = Err e) as (e & ->); [|reflexivity].
  destruct OK as ([La _] & [Lb _] & _ & Lk). unfold rd_subframe, enc_sub.
  set (k := N.of_nat (length (sf_payload s))) in *. clearbody k. rewrite P.
  match goal with |- context [gread _ ?x 0] => pose proof (At_start x) as A end.
  rstep A. rstep A. rstep A. unfold gread. unfold end_bad. rewrite St.
  destruct A as [_ A]. cbn [length] in A. 
  match goal with |- context [?a <=? ?b] => destruct (Nat.leb_spec a b) as [?|?] end; [cbn [rbind]; eauto|]. exfalso. lia.
Qed.
(** What a loop over the iterator yields, for every byte string: the subframes with their padding up
    to a rest; the loop ends if no subframe starts there, and panics if the rest is one subframe
    with (part of) its padding missing. *)
Definition items_outcome (l : list (AMSDUSubframe bytes)) (tail : bytes) (o : Res serr (list (AMSDUSubframe bytes))) : Prop :=
  (no_subframe tail /\ o = Ok l) \/
  (exists s pad, ok_sub s /\ tail = enc_sub s ++ pad /\ length pad < pad_length (length (enc_sub s)) /\
     o = if strict_end && (length tail =? 14) then Ok l else Panic).
Lemma collect_outcome fuel : forall bs, wf_bytes bs -> length bs < fuel ->
  exists l body tail, bs = body ++ tail /\ amsdu_bytes l body /\ items_outcome l tail (sub_collect fuel (Some bs)).
Proof.
  induction fuel as [|fuel IH]; intros bs W L; [lia|]. cbn [sub_collect].
  destruct (sub_cases bs W) as [(s & rest & OK & E)|N].
  2:{ rewrite (sub_next_none bs W N). cbn [rbind]. exists [], [], bs. split; [reflexivity|]. split; [constructor|]. left. auto. }
  pose proof (enc_sub_length s OK) as Ls.
  destruct (end_bad 0 (length (sf_payload s ++ rest))) eqn:EB.
  - assert (St : strict_end = true /\ length (sf_payload s ++ rest) = 0).
    { revert EB. unfold end_bad. destruct strict_end; [|discriminate]. intros Q%Nat.leb_le. split; [reflexivity|lia]. }
    destruct St as [St Z]. rewrite app_length in Z. destruct (sf_payload s) eqn:P; [|cbn in Z; lia]. destruct rest; [|cbn in Z; lia].
    rewrite app_nil_r in E. subst bs. rewrite (sub_next_strict s OK P St). cbn [rbind].
    exists [], [], (enc_sub s). split; [reflexivity|]. split; [constructor|]. right. exists s, []. rewrite app_nil_r.
    split; [exact OK|]. split; [reflexivity|]. rewrite Ls. cbn [length Nat.add]. split; [cbn; lia|]. rewrite St. reflexivity.
  - assert (EO : end_ok (sf_payload s ++ rest)).
    { revert EB. unfold end_bad, end_ok. destruct strict_end; [|auto]. intros Q%Nat.leb_gt. right. intros X. rewrite X in Q. cbn in Q. lia. }
    rewrite (sub_next_some bs s rest W OK E EO).
    destruct (Nat.leb_spec (pad_length (length (enc_sub s))) (length rest)) as [Pd|Pd].
    + cbn [rbind]. set (d := pad_length (length (enc_sub s))) in *.
      assert (Wr : wf_bytes rest) by (subst bs; now apply wf_bytes_app in W as [_ W]).
      destruct (IH (skipn d rest)) as (l & body & tail & E2 & A2 & O2).
      { now apply wf_skipn. } { rewrite skipn_length. subst bs. rewrite app_length in L. lia. }
      exists (s :: l), (enc_sub s ++ firstn d rest ++ body), tail.
      split; [subst bs; rewrite <- !app_assoc, <- E2, firstn_skipn; reflexivity|].
      split; [constructor; auto; rewrite firstn_length; fold d; lia|].
      destruct O2 as [[N O]|(s' & pad & OK' & T & Lp & O)].
      * left. split; [exact N|]. exact (f_equal (fun o => l0 <- o ;; Ok (s :: l0)) O).
      * right. exists s', pad. split; [exact OK'|]. split; [exact T|]. split; [exact Lp|].
        etransitivity; [exact (f_equal (fun o => l0 <- o ;; Ok (s :: l0)) O)|]. destruct (strict_end && (length tail =? 14)); reflexivity.
    + cbn [rbind]. exists [], [], bs. split; [reflexivity|]. split; [constructor|]. right. exists s, rest.
      split; [exact OK|]. split; [exact E|]. split; [exact Pd|].
      destruct strict_end eqn:St; cbn [andb]; [|reflexivity].
      destruct (Nat.eqb_spec (length bs) 14) as [Q|Q]; [|reflexivity]. exfalso.
      subst bs. rewrite app_length, Ls in Q. destruct EO as [EO|EO]; [congruence|]. apply EO.
      apply length_zero_iff_nil. rewrite app_length. lia.
Qed.
Lemma items_outcome_all bs : wf_bytes bs ->
  exists l body tail, bs = body ++ tail /\ amsdu_bytes l body /\ items_outcome l tail (amsdu_items bs).
Proof. intros W. apply collect_outcome; [exact W|lia]. Qed.
Lemma no_subframe_short bs : length bs < 14 -> no_subframe bs.
Proof. intros L s rest OK ->. rewrite app_length, enc_sub_length in L by exact OK. lia. Qed.
Lemma collect_amsdu l bs : amsdu_bytes l bs -> wf_bytes bs -> forall tail fuel, wf_bytes tail -> no_subframe tail -> length (bs ++ tail) < fuel ->
  sub_collect fuel (@Some bytes (bs ++ tail)) = Ok l.
Proof.
  induction 1 as [|s l pad rest OK Lp H IH]; intros W tail fuel Wt N L; (destruct fuel; [lia|]); cbn [sub_collect].
  - cbn [app]. rewrite (sub_next_none tail Wt N). reflexivity.
  - rewrite !wf_bytes_app in W. destruct W as (W1 & W2 & W3).
    rewrite <- !app_assoc in L |- *.
    erewrite sub_next_some; [|apply wf_bytes_app; split; [exact W1|]; rewrite !wf_bytes_app; auto|exact OK|reflexivity|].
    + rewrite !app_length in L |- *. rewrite (proj2 (Nat.leb_le _ _)) by lia. cbn [rbind].
      rewrite skipn_app_exact by auto. pose proof (enc_sub_length s OK). rewrite IH; auto. lia.
    + right. intros X. apply (f_equal (@length _)) in X. rewrite !app_length in X. cbn [length] in X.
      rewrite enc_sub_length in Lp by exact OK. replace (length (sf_payload s)) with 0 in Lp by lia. cbn in Lp. lia.
Qed.
Lemma items_amsdu l bs tail : amsdu_bytes l bs -> wf_bytes bs -> wf_bytes tail -> length tail < 14 -> amsdu_items (bs ++ tail) = Ok l.
Proof. intros A W Wt L. apply collect_amsdu; auto using no_subframe_short; lia. Qed.
End Facts.
