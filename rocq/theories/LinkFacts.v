(** Proofs about a link with protected data frames. *)
From Verif Require Import Base BaseFacts SpecBase Bits Layouts BitsFacts Common CommonFacts Crc CrcFacts SpecElementTypes Mgmt SpecMgmt MgmtFacts MgmtFacts2 CryptoHeader Data SpecData
  DataFacts DataFacts2 DataFacts3 DataFacts4 SpecKeyMgmt SpecHandshake SpecReplay SpecLink.

Section Facts.
Context {cfg : Cfg}.
Variables (c : Cipher) (aad : DataHeader -> bytes) (mic : MicState) (fcs : bool).
Hypothesis NL : native_le = true.
Notation hear := (open_frame c aad mic fcs).

Lemma part_wf b : wf_bytes b -> wf_bytes (frame_part fcs b).
Proof. unfold frame_part. destruct fcs; auto using wf_firstn. Qed.
(** reading with frame check sequence is reading what is in front of it *)
Lemma read_part b : match rd_data fcs b with
  | Ok x => rd_data false (frame_part fcs b) = Ok x
  | Panic => (fcs = true /\ length b < 4) \/ rd_data false (frame_part fcs b) = Panic
  | Err _ => True
  end.
Proof.
  unfold frame_part. destruct fcs; [|destruct (rd_data false b); auto].
  unfold rd_data. unfold strip_and_validate_fcs. unfold usub. destruct (Nat.leb_spec 4 (length b)) as [L|L]; cbn [rbind]; [|left; auto].
  destruct (pread (rd_le 4) (skipn (length b - 4) b) 0) as [v|e|] eqn:P; cbn [rbind]; [|exact I|].
  - destruct (v =? crc32 (firstn (length b - 4) b))%N; cbn [rbind]; [|exact I].
    destruct (gread rd_data_header (firstn (length b - 4) b) 0) as [[h o]| |]; cbn [rbind]; auto.
    destruct (data_has_payload (dh_subtype h)); [|reflexivity]. destruct (slice_from _ o); cbn [rbind]; auto.
  - exfalso. revert P. unfold pread, gread. destruct (end_bad 0 _); [discriminate|]. unfold rd_le. destruct (_ <? _); discriminate.
Qed.
Lemma read_frame b h p n : wf_bytes b -> rd_data fcs b = Ok ((h, Some p), n) ->
  data_frame_of fcs b h p /\ wf_bytes p /\ std_has_payload (subtype_number h) = true.
Proof.
  intros W R. pose proof (read_part b) as RP. rewrite R in RP. pose proof (rd_data_spec _ (part_wf b W) NL) as S. rewrite RP in S.
  destruct S as (b0 & body & OK & B0 & T & SN & E & _ & P). destruct (std_has_payload (subtype_number h)) eqn:HP; [|discriminate]. injection P as ->.
  split; [exists b0; auto|]. split; [|reflexivity]. pose proof (part_wf b W) as W'. rewrite E in W'. rewrite !wf_bytes_app in W'. tauto.
Qed.
Lemma flag_protected h : protected (dh_flags h) = N.testbit (dh_flags h) 6.
Proof. destruct (flag_bits (dh_flags h)) as (_ & _ & _ & E). symmetry. rewrite <- E. reflexivity. Qed.
Lemma number_of hdr : ch_packet_number (mkCH hdr 0) = le_val hdr.
Proof. apply (le_val_app_zeros hdr 2). Qed.
Lemma tag_of p hdr text tag : encapsulated mic p hdr text tag -> skipn (length p - mic_size mic) p = tag.
Proof.
  intros (E & L8 & _ & Lt). rewrite E, app_assoc. apply skipn_app_exact. change (length tag = mic_size mic) in Lt.
  rewrite !app_length. lia.
Qed.
(** what the receiver takes *)
Lemma heard_item b i sent : wf_bytes b -> ~ is_foreign c aad mic fcs sent b -> hear b = Ok (Some i) -> In i sent.
Proof.
  intros W NF. unfold open_frame. destruct (rd_data fcs b) as [[[h [p|]] n]| |] eqn:R; try discriminate.
  destruct (read_frame b h p n W R) as (DF & Wp & HP).
  destruct (protected (dh_flags h)) eqn:Pr.
  2: { rewrite (payload_unprotected h p (Some mic) Pr). destruct (end_bad 0 (length p)); discriminate. }
  destruct (payload_protected h p mic Pr Wp) as [Q1 _].
  destruct (potentially_wrapped_payload (h, Some p) (Some mic)) as [[[|w]|]| |] eqn:PW; try discriminate.
  assert (X : exists hdr text tag, encapsulated mic p hdr text tag /\ end_ok text).
  { revert PW. unfold potentially_wrapped_payload. cbn [fst snd]. rewrite Pr. unfold pread, gread. destruct (end_bad 0 (length p)); [discriminate|]. cbn [skipn].
    destruct (rd_wrapped mic (rd_payload (is_amsdu h)) p) as [[w' n']| |] eqn:RW; try discriminate. intros _. eapply rd_wrapped_inv; eauto. }
  destruct X as (hdr & text & tag & E & EO). pose proof (Q1 _ _ _ E EO) as PQ. injection PQ as ->. rewrite (tag_of _ _ _ _ E).
  cbn [cw_payload cw_header]. replace (match (if is_amsdu h then Pl_AMSDU (Some text) else Pl_Single text) with Pl_Single bs => bs | Pl_AMSDU (Some bs) => bs | Pl_AMSDU None => [] end)
    with text by (destruct (is_amsdu h); reflexivity).
  set (key := ch_key_id _). change (ch_packet_number _) with (ch_packet_number (mkCH (firstn 2 hdr ++ skipn 4 hdr) 0)). rewrite number_of.
  destruct (unseal c key (le_val (firstn 2 hdr ++ skipn 4 hdr)) (aad h) text tag) as [plain|] eqn:U; [|discriminate]. intros [= <-].
  destruct (in_dec (fun x y : Item => ltac:(decide equality; [apply (list_eq_dec N.eq_dec)|decide equality; [apply (list_eq_dec N.eq_dec)|apply N.eq_dec]]) : {x = y} + {x <> y})
    (le_val (firstn 2 hdr ++ skipn 4 hdr), aad h, plain) sent) as [I|I]; [exact I|exfalso]. apply NF.
  destruct E as (Ep & L8 & X & Lt). exists h, hdr, text, tag, key, plain. rewrite <- Ep. split; [exact DF|]. split; [now rewrite <- flag_protected|]. split; [exact L8|]. split; [exact X|]. split; [exact Lt|]. split; [exact U|exact I].
Qed.
(** nothing incomplete: no panic *)
Lemma heard_total b : wf_bytes b -> complete_frame mic fcs b -> exists o, hear b = Ok o.
Proof.
  intros W (L & C). unfold open_frame. destruct (rd_data fcs b) as [[[h [p|]] n]| |] eqn:R; [|eauto|eauto|].
  - destruct (read_frame b h p n W R) as (DF & Wp & HP). destruct (protected (dh_flags h)) eqn:Pr.
    + destruct (payload_protected h p mic Pr Wp) as [Q1 _]. rewrite flag_protected in Pr. destruct (C h p DF HP Pr) as (hdr & text & tag & E & EO).
      rewrite (Q1 _ _ _ E EO). eauto.
    + rewrite (payload_unprotected h p (Some mic) Pr). destruct (end_bad 0 (length p)); eauto.
  - exfalso. pose proof (read_part b) as RP. rewrite R in RP. destruct RP as [[F S]|RP]; [specialize (L F); lia|].
    pose proof (rd_data_spec _ (part_wf b W) NL) as S. rewrite RP in S. exact S.
Qed.

(** ** what is sent *)
Lemma sent_frame key m buf : ok_cipher c mic key -> ok_message m -> (key < 4)%N -> wf_bytes buf -> message_size mic m + slack <= length buf ->
  (let '(text, tag) := seal c key (m_number m) (aad (set_protected (m_header m))) (m_plain m) in
   send_message c aad mic fcs key m buf = Ok (enc_frame fcs (enc_data (set_protected (m_header m)) (enc_crypto (m_number m) key ++ text ++ tag)))).
Proof.
  intros OC (OK & HP & PN & Wp) Kl Wb L. specialize (OC (m_number m) (aad (set_protected (m_header m))) (m_plain m) Wp).
  unfold send_message. destruct (seal c key (m_number m) (aad (set_protected (m_header m))) (m_plain m)) as [text tag]. destruct OC as (Wt & Lt & Wg & Lg & _).
  assert (K : ok_crypto (m_number m) key) by (split; assumption). rewrite (ch_new_ok _ _ K).
  unfold wrapped_container, crypto_wrap. cbn [fst snd].
  assert (Ww : Writes (c_write (c_bytes text)) text) by apply c_bytes_T.
  pose proof (data_fills (set_protected (m_header m)) _ _ _ false (set_protected_ok _ OK) (c_crypto_fills (m_number m) key (c_bytes text) text mic K Wt Ww)) as F.
  cbv iota in F. rewrite Nat.add_0_r in F.
  destruct (F buf Wb) as (bs & Lbs & _ & (body & Eb & _ & Ebs) & E).
  { change (dh_length (set_protected (m_header m))) with (dh_length (m_header m)). unfold message_size in L. rewrite enc_data_length in L by exact OK.
    change (mic_length mic) with (mic_size mic). rewrite Lt. lia. }
  rewrite E. cbn [rbind]. subst body. cbn [enc_frame] in Ebs. do 2 f_equal. rewrite firstn_app.
  match goal with |- firstn ?k bs ++ firstn ?j _ ++ tag = _ => idtac | |- (firstn ?k bs ++ firstn ?j _) ++ tag = _ => replace j with 0 by lia end.
  cbn [firstn]. rewrite app_nil_r.
  assert (E1 : forall x, enc_data (set_protected (m_header m)) (enc_crypto (m_number m) key ++ text ++ x) = enc_data (set_protected (m_header m)) (enc_crypto (m_number m) key ++ text) ++ x)
    by (intros x; unfold enc_data; rewrite <- !app_assoc; reflexivity).
  rewrite E1 in Ebs. rewrite E1. f_equal. rewrite Ebs. apply firstn_app_exact.
  apply (f_equal (@length N)) in Ebs. rewrite Lbs in Ebs. rewrite app_length, repeat_length in Ebs. change (mic_length mic) with (mic_size mic) in *. lia.
Qed.
Lemma sent_heard m buf f : ok_cipher c mic 0 -> ok_message m -> end_ok (m_plain m) -> wf_bytes buf -> message_size mic m + slack <= length buf ->
  send_message c aad mic fcs 0 m buf = Ok f -> hear f = Ok (Some (item aad m)) /\ wf_bytes f.
Proof.
  intros OC OM EO Wb L S. pose proof (sent_frame 0 m buf OC OM eq_refl Wb L) as F. pose proof OM as (OK & HP & PN & Wp).
  specialize (OC (m_number m) (aad (set_protected (m_header m))) (m_plain m) Wp).
  destruct (seal c 0 (m_number m) (aad (set_protected (m_header m))) (m_plain m)) as [text tag]. destruct OC as (Wt & Lt & Wg & Lg & U).
  rewrite S in F. injection F as ->. pose proof (set_protected_ok _ OK) as OK'.
  assert (K : ok_crypto (m_number m) 0) by (split; [assumption|reflexivity]).
  assert (We : wf_bytes (enc_crypto (m_number m) 0 ++ text ++ tag)) by (rewrite !wf_bytes_app; split; [apply enc_crypto_wf; apply K|split; assumption]).
  pose proof (rd_data_enc _ _ fcs NL OK' We) as R. change (subtype_number (set_protected (m_header m))) with (subtype_number (m_header m)) in R. rewrite HP in R.
  set (f := enc_frame fcs _) in *. assert (R' : exists n, rd_data fcs f = Ok ((set_protected (m_header m), Some (enc_crypto (m_number m) 0 ++ text ++ tag)), n)).
  { revert R. unfold pread, gread. destruct (end_bad 0 (length f)); [discriminate|]. cbn [skipn]. destruct (rd_data fcs f) as [[x n]| |]; cbn; try discriminate. intros [= ->]. eauto. }
  destruct R' as [n R']. split.
  - unfold open_frame. rewrite R'.
    assert (Pr : protected (dh_flags (set_protected (m_header m))) = true). { pose proof OK as (_ & F8 & _). apply (protected_flags (dh_flags (m_header m)) F8). }
    destruct (payload_protected (set_protected (m_header m)) _ mic Pr We) as [Q _].
    destruct (enc_crypto_encapsulated (m_number m) 0 mic text tag K Lg) as (E & E1 & E2).
    assert (EO' : end_ok text). { destruct EO as [EO|EO]; [left; exact EO|right]. intros ->. destruct (m_plain m); [congruence|discriminate]. }
    rewrite (Q _ _ _ E EO'), E1, E2, (tag_of _ _ _ _ E). cbn [cw_payload cw_header ch_key_id].
    replace (match (if is_amsdu (set_protected (m_header m)) then Pl_AMSDU (Some text) else Pl_Single text) with Pl_Single bs => bs | Pl_AMSDU (Some bs) => bs | Pl_AMSDU None => [] end)
      with text by (destruct (is_amsdu (set_protected (m_header m))); reflexivity).
    rewrite number_of, le_val_bytes_small by exact PN. rewrite U. reflexivity.
  - subst f. assert (Wd : wf_bytes (enc_data (set_protected (m_header m)) (enc_crypto (m_number m) 0 ++ text ++ tag))) by now apply enc_data_wf.
    unfold enc_frame. destruct fcs; [|exact Wd]. apply wf_bytes_app. split; [exact Wd|apply le_bytes_wf].
Qed.

(** ** histories *)
Lemma rising_sub (l l' : list Item) : rising l -> rising l' -> Forall (fun s => In s l') l -> subsequence l l'.
Proof.
  revert l. induction l' as [|x l' IH]; intros l I I' A.
  - destruct l as [|y l]; [constructor|]. inversion A as [|? ? [] _].
  - destruct l as [|y l].
    + clear. constructor. induction l'; constructor; auto.
    + destruct I as [Iy I]. destruct I' as [Ix I']. inversion A as [|? ? Ay At]; subst. destruct Ay as [->|Ay].
      * apply sub_take. apply IH; auto. rewrite Forall_forall in *. intros z Z. destruct (At z Z) as [->|Q]; [|exact Q].
        specialize (Iy _ Z). lia.
      * apply sub_skip. apply IH; [now split|exact I'|]. constructor; [exact Ay|]. rewrite Forall_forall in *. intros z Z.
        destruct (At z Z) as [->|Q]; [|exact Q]. specialize (Iy _ Z). specialize (Ix _ Ay). lia.
Qed.
Lemma run_rising air : forall last, rising (link hear last air) /\ Forall (fun i => newer last (item_number i) = true) (link hear last air).
Proof.
  induction air as [|b air IH]; intros last; cbn [link]; [split; constructor|].
  destruct (hear b) as [[i|]| |]; [|apply IH|apply IH|split; constructor].
  destruct (newer last (item_number i)) eqn:N; [|apply IH]. destruct (IH (Some (item_number i))) as [R F]. split.
  - split; [|exact R]. eapply Forall_impl; [|exact F]. cbn [newer]. intros j H. now apply N.ltb_lt.
  - constructor; [exact N|]. eapply Forall_impl; [|exact F]. cbn beta. intros j H. cbn [newer] in H. apply N.ltb_lt in H. destruct last as [l|]; [|reflexivity].
    cbn [newer] in *. apply N.ltb_lt in N. apply N.ltb_lt. lia.
Qed.
Lemma run_sent sent air : Forall wf_bytes air -> Forall (fun b => ~ is_foreign c aad mic fcs sent b) air -> forall last, Forall (fun i => In i sent) (link hear last air).
Proof.
  intros W NF. induction air as [|b air IH]; intros last; cbn [link]; [constructor|]. inversion W as [|? ? W1 W2]; subst. inversion NF as [|? ? N1 N2]; subst.
  destruct (hear b) as [[i|]| |] eqn:H; [|now apply IH|now apply IH|constructor].
  destruct (newer last (item_number i)); [|now apply IH]. constructor; [|now apply IH]. eapply heard_item; eauto.
Qed.
Lemma link_safe sent air last : Forall wf_bytes air -> rising sent -> Forall (fun b => ~ is_foreign c aad mic fcs sent b) air -> subsequence (link hear last air) sent.
Proof. intros W R NF. apply rising_sub; [apply run_rising|exact R|now apply run_sent]. Qed.

(** a round in which nothing new is heard *)
Lemma run_old past air rest : Forall wf_bytes air -> Forall (complete_frame mic fcs) air -> Forall (fun b => ~ is_foreign c aad mic fcs past b) air ->
  forall last, Forall (fun i => newer last (item_number i) = false) past -> link hear last (air ++ rest) = link hear last rest.
Proof.
  intros W C NF last O. induction air as [|b air IH]; [reflexivity|]. cbn [app link]. inversion W as [|? ? W1 W2]; subst. inversion NF as [|? ? N1 N2]; subst.
  inversion C as [|? ? C1 C2]; subst. destruct (heard_total b W1 C1) as [[i|] E]; rewrite E; [|now apply IH].
  pose proof (heard_item b i past W1 N1 E) as I. rewrite Forall_forall in O. rewrite (O i I). now apply IH.
Qed.
Lemma run_new past i air rest : Forall wf_bytes air -> Forall (complete_frame mic fcs) air -> Forall (fun b => ~ is_foreign c aad mic fcs (past ++ [i]) b) air ->
  forall last, Forall (fun i => newer last (item_number i) = false) past -> newer last (item_number i) = true -> rising (past ++ [i]) ->
  (exists f, In f air /\ hear f = Ok (Some i)) ->
  link hear last (air ++ rest) = i :: link hear (Some (item_number i)) rest.
Proof.
  intros W C NF last O N R (f & I & E). induction air as [|b air IH]; [destruct I|]. cbn [app link]. inversion W as [|? ? W1 W2]; subst. inversion NF as [|? ? N1 N2]; subst.
  inversion C as [|? ? C1 C2]; subst.
  assert (Old : Forall (fun j => newer (Some (item_number i)) (item_number j) = false) (past ++ [i])).
  { apply Forall_app. split.
    - clear - R. induction past as [|x past IHp]; [constructor|]. destruct R as [R1 R2]. constructor; [|now apply IHp].
      apply Forall_app in R1 as [_ R1]. inversion R1 as [|? ? R0 _]; subst. cbn [newer]. apply N.ltb_ge. lia.
    - constructor; [|constructor]. cbn [newer]. apply N.ltb_irrefl. }
  destruct (heard_total b W1 C1) as [[j|] Ej]; rewrite Ej.
  - destruct (newer last (item_number j)) eqn:Nj.
    + pose proof (heard_item b j _ W1 N1 Ej) as Ij. apply in_app_or in Ij as [Ij|[<-|[]]].
      * rewrite Forall_forall in O. rewrite (O j Ij) in Nj. discriminate.
      * f_equal. now apply run_old with (past := past ++ [i]).
    + apply IH; auto. destruct I as [<-|I]; [|exact I]. rewrite E in Ej. injection Ej as ->. congruence.
  - apply IH; auto. destruct I as [<-|I]; [congruence|exact I].
Qed.
Lemma rising_app (a b : list Item) : rising (a ++ b) -> rising a /\ rising b /\ Forall (fun x => Forall (fun y => (item_number x < item_number y)%N) b) a.
Proof.
  induction a as [|x a IH]; cbn [app rising]; [intros R; split; [exact I|split; [exact R|constructor]]|].
  intros (F & R). apply IH in R as (R1 & R2 & R3). apply Forall_app in F as [F1 F2]. auto.
Qed.
Lemma run_all (rounds : Rounds) : ok_cipher c mic 0 -> forall past last,
  Forall (fun r => ok_message (fst r) /\ end_ok (m_plain (fst r)) /\ Forall wf_bytes (snd r) /\ Forall (complete_frame mic fcs) (snd r) /\ is_heard c aad mic fcs 0 (fst r) (snd r)) rounds ->
  nothing_foreign c aad mic fcs past rounds -> rising (past ++ map (fun r => item aad (fst r)) rounds) ->
  Forall (fun i => newer last (item_number i) = false) past -> (past = [] /\ last = None \/ exists i, In i past /\ last = Some (item_number i)) ->
  link hear last (concat (map snd rounds)) = map (fun r => item aad (fst r)) rounds.
Proof.
  intros OC. induction rounds as [|[m air] rounds IH]; intros past last A NF R O Last; [reflexivity|].
  inversion A as [|? ? (OM & EO & W & C & (buf & f & Wb & Lb & Sf & If)) A']; subst. cbn [fst snd] in *. destruct NF as [NF NF'].
  cbn [map concat fst snd]. destruct (sent_heard m buf f OC OM EO Wb Lb Sf) as [Hf _].
  cbn [map fst] in R. change (item aad m :: map (fun r => item aad (fst r)) rounds) with ([item aad m] ++ map (fun r => item aad (fst r)) rounds) in R.
  rewrite app_assoc in R. destruct (rising_app _ _ R) as (R1 & _ & _). destruct (rising_app _ _ R1) as (_ & _ & R3).
  assert (N : newer last (item_number (item aad m)) = true).
  { destruct Last as [[_ ->]|(i & Ii & ->)]; [reflexivity|]. rewrite Forall_forall in R3. specialize (R3 i Ii). inversion R3 as [|? ? R0 _]; subst. cbn [newer]. now apply N.ltb_lt. }
  rewrite (run_new past (item aad m) air _ W C NF last O N R1) by eauto. f_equal. apply IH with (past := past ++ [item aad m]); auto.
  - apply Forall_app. split.
    + rewrite Forall_forall in *. intros i Ii. specialize (R3 i Ii). inversion R3 as [|? ? R0 _]; subst. cbn [newer]. apply N.ltb_ge. lia.
    + constructor; [|constructor]. cbn [newer]. apply N.ltb_irrefl.
  - right. exists (item aad m). split; [apply in_or_app; right; now left|reflexivity].
Qed.
Lemma link_live (rounds : Rounds) : ok_cipher c mic 0 ->
  Forall (fun r => ok_message (fst r) /\ end_ok (m_plain (fst r)) /\ Forall wf_bytes (snd r) /\ Forall (complete_frame mic fcs) (snd r) /\ is_heard c aad mic fcs 0 (fst r) (snd r)) rounds ->
  nothing_foreign c aad mic fcs [] rounds -> rising (map (fun r => item aad (fst r)) rounds) ->
  link hear None (concat (map snd rounds)) = map (fun r => item aad (fst r)) rounds.
Proof. intros OC A NF R. apply run_all with (past := []); auto. Qed.
(** other key IDs *)
Lemma other_keys key m buf f : ok_cipher c mic key -> ok_message m -> (0 < key < 4)%N -> end_ok (m_plain m) -> wf_bytes buf -> message_size mic m + slack <= length buf ->
  (forall pn a text tag, unseal c 0 pn a text tag = None) -> send_message c aad mic fcs key m buf = Ok f -> hear f = Ok None.
Proof.
  intros OC OM Kl EO Wb L K0 S. assert (Kl' : (key < 4)%N) by lia. pose proof (sent_frame key m buf OC OM Kl' Wb L) as F. pose proof OM as (OK & HP & PN & Wp).
  specialize (OC (m_number m) (aad (set_protected (m_header m))) (m_plain m) Wp).
  destruct (seal c key (m_number m) (aad (set_protected (m_header m))) (m_plain m)) as [text tag]. destruct OC as (Wt & Lt & Wg & Lg & U).
  rewrite S in F. injection F as ->. pose proof (set_protected_ok _ OK) as OK'.
  assert (K : ok_crypto (m_number m) key) by (split; assumption).
  assert (We : wf_bytes (enc_crypto (m_number m) key ++ text ++ tag)) by (rewrite !wf_bytes_app; split; [apply enc_crypto_wf; apply K|split; assumption]).
  pose proof (rd_data_enc _ _ fcs NL OK' We) as R. change (subtype_number (set_protected (m_header m))) with (subtype_number (m_header m)) in R. rewrite HP in R.
  set (f := enc_frame fcs _) in *. assert (R' : exists n, rd_data fcs f = Ok ((set_protected (m_header m), Some (enc_crypto (m_number m) key ++ text ++ tag)), n)).
  { revert R. unfold pread, gread. destruct (end_bad 0 (length f)); [discriminate|]. cbn [skipn]. destruct (rd_data fcs f) as [[x n]| |]; cbn; try discriminate. intros [= ->]. eauto. }
  destruct R' as [n R']. unfold open_frame. rewrite R'.
  assert (Pr : protected (dh_flags (set_protected (m_header m))) = true). { pose proof OK as (_ & F8 & _). apply (protected_flags (dh_flags (m_header m)) F8). }
  destruct (payload_protected (set_protected (m_header m)) _ mic Pr We) as [Q _].
  destruct (enc_crypto_encapsulated (m_number m) key mic text tag K Lg) as (E & E1 & E2).
  assert (EO' : end_ok text). { destruct EO as [EO|EO]; [left; exact EO|right]. intros ->. destruct (m_plain m); [congruence|discriminate]. }
  rewrite (Q _ _ _ E EO'), E1, E2. cbn [cw_header ch_key_id]. rewrite K0. reflexivity.
Qed.
End Facts.
