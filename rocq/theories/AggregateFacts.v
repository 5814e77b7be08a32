(** Facts about A-MSDUs in traffic. *)
From Verif Require Import Base SpecBase BaseFacts Crc CrcFacts Enums Common CommonFacts Elements ElementsFacts SpecElementTypes Mgmt SpecMgmt MgmtFacts MgmtFacts2 CryptoHeader Amsdu Data SpecData DataFacts DataFacts2 DataFacts3
  DataFacts4 DataFacts5 Generic SpecGeneric SpecPortable SpecDelivery DeliveryFacts SpecNoise NoiseFacts SpecAggregate.

Section F.
Context {cfg : Cfg}.
Variable (l : list (nat * Arm (Res serr (list Message)))).
Hypothesis (U : unpacks l).
(** what the receiver makes of a header does not depend on the two fields that big endian machines exchange *)
Lemma unpack_swapped h p : unpack (swapped_header h, p) = unpack (h, p).
Proof. reflexivity. Qed.
Lemma read_as h p : unpack (if native_le then h else swapped_header h, p) = unpack (h, p).
Proof. destruct native_le; [reflexivity|apply unpack_swapped]. Qed.
Lemma not_protected h : unprotected h -> protected (dh_flags h) = false.
Proof. intros (_ & P & _). destruct (flag_bits (dh_flags h)) as (_ & _ & _ & E). rewrite E. exact P. Qed.
Lemma frame_sent h body f : unprotected h -> wf_bytes body -> f = enc_frame true (enc_data h body) -> sent l f (unpack (h, Some body)).
Proof.
  intros (H & _ & HP) W ->. destruct U as (TA & I).
  set (buf := repeat 0%N (length (enc_frame true (enc_data h body)) + slack)).
  assert (PO : payload_ok h (Some (c_bytes body)) body) by exact (conj HP (conj W (WritesT_Writes _ _ (c_bytes_T body)))).
  assert (L : length (enc_frame true (enc_data h body)) + slack <= length buf) by (unfold buf; rewrite repeat_length; lia).
  destruct (data_round_trip h (Some (c_bytes body)) body true H PO) as (Wr & _). destruct (written_at _ _ _ Wr L) as (buf' & n & E & F).
  pose proof (sent_data l unpack h (Some (c_bytes body)) body buf buf' n I H PO L E) as S. rewrite read_as, F in S. exact S.
Qed.
Lemma packet_sent p : ok_packet p -> exists f, packet_frame p = Ok f /\ sent l f (Ok (inside p)).
Proof.
  destruct p as [h m buffer|h ms buffer]; cbn [ok_packet packet_frame inside].
  - intros (UH & AM & D & S & W & EO & L). pose proof UH as (H & _ & HP).
    assert (PO : payload_ok h (Some (c_bytes (sf_payload m))) (sf_payload m)) by exact (conj HP (conj W (WritesT_Writes _ _ (c_bytes_T (sf_payload m))))).
    destruct (data_round_trip h _ _ true H PO) as (Wr & _). destruct (written_at _ _ _ Wr L) as (buf' & n & E & F). rewrite E. cbn [rbind].
    eexists. split; [reflexivity|]. pose proof (frame_sent h (sf_payload m) _ UH W F) as X.
    replace (Ok [m]) with (unpack (h, Some (sf_payload m))); [exact X|]. unfold unpack. rewrite payload_unprotected by now apply not_protected.
    assert (B : end_bad 0 (length (sf_payload m)) = false).
    { unfold end_bad. destruct EO as [->|EO]; [reflexivity|]. destruct (sf_payload m); [congruence|]. cbn. apply andb_false_r. }
    rewrite B. cbn [rbind fst]. pose proof (amsdu_std h H) as A. rewrite A, AM. destruct (roles h A) as (_ & _ & -> & -> & _). rewrite AM, D, S. now destruct m.
  - intros (UH & AM & NE & F & W & L). pose proof UH as (H & PR & HP).
    assert (F2 : Forall2 sub_writes (map (fun m => mkSub (sf_da m) (sf_sa m) (c_bytes (sf_payload m))) ms) ms).
    { clear -F. induction F as [|m ms O F IH]; cbn [map]; constructor; [apply sub_of_writes; exact O|exact IH]. }
    destruct (data_fills h _ _ _ true H (amsdu_fills _ _ F2) buffer W) as (bs & Lb & Wb & (body & A & Wbody & Eb) & E); [lia|]. rewrite E. cbn [rbind].
    eexists. split; [reflexivity|]. rewrite <- Lb, firstn_app, Nat.sub_diag, firstn_all, firstn_O, app_nil_r.
    pose proof (frame_sent h body bs UH Wbody Eb) as X. replace (Ok ms) with (unpack (h, Some body)); [exact X|].
    unfold unpack. rewrite payload_unprotected by now apply not_protected. rewrite end_bad_lt.
    + cbn [rbind]. rewrite (amsdu_std h H), AM. rewrite <- (app_nil_r body). apply items_amsdu; auto; [constructor|cbn; lia].
    + clear X Eb E. inversion A as [Em|s l' pad rest OS LP AR Em]; [exfalso; apply NE; auto|]. rewrite app_length, enc_sub_length by exact OS. lia.
Qed.
Lemma traffic_channel air due : traffic l air due -> exists rs, channel l air rs /\ gather rs = Ok due.
Proof.
  intros T. induction T as [|p f air due O E T (rs & C & G)|p f b air due O E D T (rs & C & G)|f air due S T (rs & C & G)|f b air due S D T (rs & C & G)].
  - exists []. split; [constructor|reflexivity].
  - destruct (packet_sent p O) as (f' & E' & S). rewrite E in E'. injection E' as <-. exists (Ok (inside p) :: rs). split; [now constructor|]. cbn. now rewrite G.
  - destruct (packet_sent p O) as (f' & E' & S). rewrite E in E'. injection E' as <-. exists rs. split; [now apply (channel_damaged l f (Ok (inside p)))|exact G].
  - exists (Ok [] :: rs). split; [now constructor|]. cbn. now rewrite G.
  - exists rs. split; [now apply (channel_damaged l f (Ok []))|exact G].
Qed.
Theorem delivered_messages air due : traffic l air due -> deliver l air = Ok due.
Proof.
  intros T. destruct (traffic_channel air due T) as (rs & C & G). unfold deliver. rewrite (through_noise _ l air rs (proj1 U) C). exact G.
Qed.
Theorem every_packing ps : Forall ok_packet ps ->
  exists fs, Forall2 (fun p f => packet_frame p = Ok f) ps fs /\ deliver l fs = Ok (concat (map inside ps)).
Proof.
  intros F. assert (X : exists fs, Forall2 (fun p f => packet_frame p = Ok f) ps fs /\ traffic l fs (concat (map inside ps))).
  { induction F as [|p ps O F (fs & A & T)]; [exists []; split; constructor|]. destruct (packet_sent p O) as (f & E & _). exists (f :: fs).
    split; [now constructor|]. cbn [map concat]. now apply packet_heard. }
  destruct X as (fs & A & T). exists fs. split; [exact A|now apply delivered_messages].
Qed.
End F.
