(** Proofs about access points that rebuild frames. *)
From Verif Require Import Base BaseFacts SpecBase Enums Common SpecCommon Crc CrcFacts Elements ElementTypes SpecElementTypes Mgmt CommonFacts SpecMgmt MgmtFacts3 MgmtFacts5 MgmtFacts2 Data SpecData
  DataFacts DataFacts2 DataFacts3 DataFacts5 ForwardFacts InjectiveFacts SpecPortable PortableFacts RelayFacts Builder SpecBuilder BuilderFacts BuilderFacts2 SpecJourney JourneyFacts.

(** ** What was received *)
Lemma accepted_ok (cfg : Cfg) fcs bs h p : wf_bytes bs -> pread (rd_data fcs) bs 0 = Ok (h, p) ->
  ok_data_header h /\ match p with Some body => wf_bytes body /\ std_has_payload (subtype_number h) = true | None => True end.
Proof.
  intros W R. unfold pread, gread in R. destruct (end_bad _ _); [discriminate|]. cbn [skipn] in R.
  destruct (rd_data fcs bs) as [[[h0 p0] n]| |] eqn:E; cbn [rbind] in R; try discriminate. injection R as -> ->.
  assert (X : exists f, rd_data false f = Ok ((h, p), n) /\ wf_bytes f).
  { destruct fcs; [|now exists bs].
    rewrite rd_data_fcs in E. destruct (strip_and_validate_fcs bs) as [f| |] eqn:S; cbn [rbind] in E; try discriminate.
    apply (strip_fcs_spec bs W) in S. exists f. split; [exact E|]. subst bs. now apply wf_bytes_app in W. }
  clear E W. destruct X as (f & R & W). clear bs.
  destruct (@native_le cfg) eqn:L.
  - pose proof (rd_data_spec f W L) as S. rewrite R in S. destruct S as (b0 & body & H & _ & _ & _ & Ef & _ & ->). split; [exact H|].
    destruct (std_has_payload _); [|exact I]. split; [|reflexivity]. rewrite Ef in W. apply wf_bytes_app in W as [_ W]. now apply wf_bytes_app in W as [_ W].
  - assert (EQ : cfg = on_big cfg) by (destruct cfg as [s l o]; cbn in L; subst l; reflexivity).
    rewrite EQ in R. rewrite data_swapped in R by exact W. destruct (@rd_data (on_little cfg) false f) as [[[h0 p0] n0]| |] eqn:RL; try discriminate.
    cbn [rmap] in R. assert (h = swapped_header h0) as -> by congruence. assert (p0 = p) as -> by congruence. clear R.
    pose proof (@rd_data_spec (on_little cfg) f W eq_refl) as S. rewrite RL in S. destruct S as (b0 & body & H & _ & _ & _ & Ef & _ & ->).
    split; [now apply swapped_ok|]. change (subtype_number (swapped_header h0)) with (subtype_number h0).
    destruct (std_has_payload _); [|exact I]. split; [|reflexivity]. rewrite Ef in W. apply wf_bytes_app in W as [_ W]. now apply wf_bytes_app in W as [_ W].
Qed.

(** ** What is built *)
Definition plain (flags : N) (a1 a2 a3 : bytes) (a4 : option bytes) : DataHeader := mkDH Dt_Data flags 0 a1 a2 a3 0 a4 None None.
Lemma built_down s d b body : built (to_station s d b body) = Some (plain 2 d b s None, Some (c_bytes body)).
Proof. reflexivity. Qed.
Lemma built_documented s d b body : built (to_station_documented s d b body) = Some (plain 2 d s b None, Some (c_bytes body)).
Proof. reflexivity. Qed.
Lemma built_up s d b body : built (to_access_point s d b body) = Some (plain 1 b s d None, Some (c_bytes body)).
Proof. reflexivity. Qed.
Lemma built_across me next s d b body : built (to_distribution me next s d b body) = Some (plain 3 next me d (Some s), Some (c_bytes body)).
Proof. reflexivity. Qed.
Lemma plain_ok flags a1 a2 a3 a4 : In flags [1; 2; 3]%N -> address a1 -> address a2 -> address a3 ->
  match a4 with Some a => flags = 3%N /\ address a | None => flags <> 3%N end -> ok_data_header (plain flags a1 a2 a3 a4).
Proof.
  intros F H1 H2 H3 H4. unfold plain, ok_data_header. cbn [dh_subtype dh_flags dh_duration dh_a1 dh_a2 dh_a3 dh_seq dh_a4 dh_qos dh_ht].
  split; [split; reflexivity|]. repeat destruct F as [F|F]; try contradiction; subst flags;
    repeat (split; [first [assumption|vm_compute; reflexivity]|]); (split; [destruct a4 as [a|]; [|try reflexivity; now destruct H4]|split; reflexivity]);
    destruct H4 as [E H4]; try discriminate; split; [reflexivity|exact H4].
Qed.
Lemma plain_fits flags a1 a2 a3 a4 body : wf_bytes body -> fits (plain flags a1 a2 a3 a4) body.
Proof. intros W. split; [exact W|]. intros E. discriminate. Qed.
Lemma plain_read (cfg : Cfg) fcs flags a1 a2 a3 a4 body : ok_data_header (plain flags a1 a2 a3 a4) -> wf_bytes body ->
  pread (rd_data fcs) (enc_frame fcs (enc_data (plain flags a1 a2 a3 a4) body)) 0 = Ok (plain flags a1 a2 a3 a4, Some body).
Proof. intros H W. rewrite read_anywhere by (assumption || now apply plain_fits). now destruct native_le. Qed.
Definition room (fcs : bool) (body : bytes) (n : nat) (cfg : Cfg) (buffer : bytes) : Prop :=
  n + length body + (if fcs then 4 else 0) + slack <= length buffer.
Lemma plain_length fcs flags a1 a2 a3 a4 body : address a1 -> address a2 -> address a3 -> match a4 with Some a => address a | None => True end ->
  length (enc_frame fcs (enc_data (plain flags a1 a2 a3 a4) body)) = (match a4 with Some _ => 30 | None => 24 end) + length body + (if fcs then 4 else 0).
Proof.
  intros (L1 & _) (L2 & _) (L3 & _) H4. assert (E : length (enc_data (plain flags a1 a2 a3 a4) body) = (match a4 with Some _ => 30 | None => 24 end) + length body).
  { unfold enc_data, enc_data_header, enc_fcf, plain. cbn [dh_subtype dh_flags dh_duration dh_a1 dh_a2 dh_a3 dh_seq dh_a4 dh_qos dh_ht enc_opt].
    rewrite !app_length, !le_bytes_length, L1, L2, L3. destruct a4 as [a|]; cbn [enc_opt length]; [destruct H4 as [-> _]|]; lia. }
  unfold enc_frame. destruct fcs; [|lia]. rewrite app_length, E. cbn [le_bytes be_bytes length]. try rewrite le_bytes_length. lia.
Qed.
Lemma plain_sent (cfg : Cfg) fcs flags a1 a2 a3 a4 body buffer : ok_data_header (plain flags a1 a2 a3 a4) -> wf_bytes body ->
  room fcs body (match a4 with Some _ => 30 | None => 24 end) cfg buffer ->
  send cfg fcs (plain flags a1 a2 a3 a4, Some (c_bytes body)) buffer = Ok (enc_frame fcs (enc_data (plain flags a1 a2 a3 a4) body)).
Proof.
  intros H W L. apply (sent cfg fcs (plain flags a1 a2 a3 a4) body); [exact H|now apply plain_fits|].
  pose proof H as (_ & _ & _ & H1 & H2 & H3 & _ & H4 & _). rewrite plain_length; [exact L| | | |]; try assumption.
  cbn [plain dh_a4] in H4. destruct a4; [exact (proj2 H4)|exact I].
Qed.
Lemma rebuilt (cfg : Cfg) fcs chain buffer frame h body s d b : pread (rd_data fcs) frame 0 = Ok (h, Some body) ->
  source_address h = Some s -> destination_address h = Some d -> bssid h = Some b ->
  rebuild cfg fcs chain buffer frame = option_map (fun x => send cfg fcs x buffer) (built (chain s d b body)).
Proof. intros R S D B. unfold rebuild. now rewrite R, S, D, B. Qed.

(** ** An access point between two of its stations *)
Lemma up_roles h : ok_data_header h -> N.testbit (dh_flags h) 0 = true -> N.testbit (dh_flags h) 1 = false -> std_amsdu h = false ->
  source_address h = Some (dh_a2 h) /\ destination_address h = Some (dh_a3 h) /\ bssid h = Some (dh_a1 h).
Proof.
  intros H T F A. destruct (roles h (amsdu_std h H)) as (_ & _ & D & S & B). rewrite T, F, A in *. cbn in D, S, B.
  split; [exact S|]. split; [exact D|]. exact (B eq_refl).
Qed.
Lemma down_arrives fcs s d b body : address s -> address d -> address b -> wf_bytes body ->
  arrives fcs (enc_frame fcs (enc_data (plain 2 d b s None) body)) s d b body.
Proof.
  intros S D B W cfg. exists (plain 2 d b s None). split; [|now repeat split].
  apply plain_read; [|exact W]. apply plain_ok; try assumption; [cbn; tauto|discriminate].
Qed.
Lemma access_point_delivers (cfg : Cfg) fcs received h body buffer : wf_bytes received -> pread (rd_data fcs) received 0 = Ok (h, Some body) ->
  N.testbit (dh_flags h) 0 = true -> N.testbit (dh_flags h) 1 = false -> std_amsdu h = false ->
  24 + length body + (if fcs then 4 else 0) + slack <= length buffer ->
  exists frame, rebuild cfg fcs to_station buffer received = Some (Ok frame) /\ arrives fcs frame (dh_a2 h) (dh_a3 h) (dh_a1 h) body.
Proof.
  intros W R T F A L. destruct (accepted_ok _ _ _ _ _ W R) as (H & Wb & _). destruct (up_roles h H T F A) as (S & D & B).
  pose proof H as (_ & _ & _ & H1 & H2 & H3 & _).
  eexists. split; [|apply down_arrives; assumption]. rewrite (rebuilt _ _ _ _ _ _ _ _ _ _ R S D B), built_down. cbn [option_map]. f_equal.
  apply plain_sent; [|exact Wb|exact L]. apply plain_ok; try assumption; [cbn; tauto|discriminate].
Qed.
Lemma access_point_exchanges (cfg : Cfg) fcs received h body buffer : wf_bytes received -> pread (rd_data fcs) received 0 = Ok (h, Some body) ->
  N.testbit (dh_flags h) 0 = true -> N.testbit (dh_flags h) 1 = false -> std_amsdu h = false ->
  24 + length body + (if fcs then 4 else 0) + slack <= length buffer ->
  exists frame, rebuild cfg fcs to_station_documented buffer received = Some (Ok frame) /\ arrives fcs frame (dh_a1 h) (dh_a3 h) (dh_a2 h) body.
Proof.
  intros W R T F A L. destruct (accepted_ok _ _ _ _ _ W R) as (H & Wb & _). destruct (up_roles h H T F A) as (S & D & B).
  pose proof H as (_ & _ & _ & H1 & H2 & H3 & _).
  eexists. split; [|apply (down_arrives fcs (dh_a1 h) (dh_a3 h) (dh_a2 h)); assumption]. rewrite (rebuilt _ _ _ _ _ _ _ _ _ _ R S D B), built_documented. cbn [option_map]. f_equal.
  apply plain_sent; [|exact Wb|exact L]. apply plain_ok; try assumption; [cbn; tauto|discriminate].
Qed.

(** ** The whole way *)
Lemma swapped_zero : swapped 0 = 0%N. Proof. reflexivity. Qed.
Lemma behind_plain hops k flags a1 a2 a3 a4 : header_behind hops k (plain flags a1 a2 a3 a4) = plain flags (hop_next k) (hop_me k) a3 a4.
Proof. unfold header_behind, plain, twisted. cbn [dh_subtype dh_flags dh_duration dh_a3 dh_seq dh_a4 dh_qos dh_ht]. destruct (Nat.odd _); reflexivity. Qed.
Lemma across_passes (fcs : bool) hops body me next s d : address me -> address next -> address s -> address d -> wf_bytes body ->
  Forall (good_hop (30 + length body + (if fcs then 4 else 0))) hops ->
  exists me' next', address me' /\ address next' /\
    pass_along fcs hops (enc_frame fcs (enc_data (plain 3 next me d (Some s)) body)) = Ok (enc_frame fcs (enc_data (plain 3 next' me' d (Some s)) body)).
Proof.
  intros M X S D W G. destruct hops as [|j hops]; [now exists me, next|].
  assert (NE : j :: hops <> []) by discriminate. destruct (exists_last NE) as (l & k & E). rewrite E in *. clear j hops NE E.
  assert (K : good_hop (30 + length body + (if fcs then 4 else 0)) k) by (apply Forall_app in G as [_ G]; now inversion_clear G).
  exists (hop_me k), (hop_next k). split; [apply K|]. split; [apply K|].
  rewrite path_passes; [now rewrite behind_plain| |now apply plain_fits|].
  - apply plain_ok; try assumption; [cbn; tauto|now split].
  - rewrite plain_length by assumption. exact G.
Qed.
Lemma whole_way fcs cfg0 cfg1 cfg2 hops s d b1 next b2 body buffer0 buffer1 buffer2 :
  address s -> address d -> address b1 -> address next -> address b2 -> wf_bytes body ->
  35 + length body <= length buffer0 -> 35 + length body <= length buffer1 -> 35 + length body <= length buffer2 ->
  Forall (fun k => address (hop_me k) /\ address (hop_next k) /\ 35 + length body <= length (hop_buffer k)) hops ->
  exists f1 f2 f3 f4,
    option_map (fun x => send cfg0 fcs x buffer0) (built (to_access_point s d b1 body)) = Some (Ok f1) /\
    rebuild cfg1 fcs (to_distribution b1 next) buffer1 f1 = Some (Ok f2) /\
    pass_along fcs hops f2 = Ok f3 /\
    rebuild cfg2 fcs (fun source destination _ => to_station source destination b2) buffer2 f3 = Some (Ok f4) /\
    arrives fcs f4 s d b2 body.
Proof.
  intros S D B1 X B2 W L0 L1 L2 G.
  assert (SL : forall c : Cfg, slack <= 1) by (intros c; unfold slack; destruct strict_end; lia).
  assert (RM : forall (c : Cfg) n buffer, n <= 30 -> 35 + length body <= length buffer -> room fcs body n c buffer).
  { intros c n buffer N L. unfold room. specialize (SL c). destruct fcs; lia. }
  assert (H1 : ok_data_header (plain 1 b1 s d None)) by (apply plain_ok; try assumption; [cbn; tauto|discriminate]).
  assert (H2 : ok_data_header (plain 3 next b1 d (Some s))) by (apply plain_ok; try assumption; [cbn; tauto|now split]).
  assert (H4 : ok_data_header (plain 2 d b2 s None)) by (apply plain_ok; try assumption; [cbn; tauto|discriminate]).
  assert (G' : Forall (good_hop (30 + length body + (if fcs then 4 else 0))) hops).
  { eapply Forall_impl; [|exact G]. intros k (M & N & L). split; [exact M|]. split; [exact N|]. specialize (SL (hop_machine k)). destruct fcs; lia. }
  destruct (across_passes fcs hops body b1 next s d B1 X S D W G') as (me' & next' & M' & X' & P).
  assert (H3 : ok_data_header (plain 3 next' me' d (Some s))) by (apply plain_ok; try assumption; [cbn; tauto|now split]).
  exists (enc_frame fcs (enc_data (plain 1 b1 s d None) body)), (enc_frame fcs (enc_data (plain 3 next b1 d (Some s)) body)),
    (enc_frame fcs (enc_data (plain 3 next' me' d (Some s)) body)), (enc_frame fcs (enc_data (plain 2 d b2 s None) body)).
  split. { rewrite built_up. cbn [option_map]. f_equal. apply plain_sent; [exact H1|exact W|apply RM; [lia|exact L0]]. }
  split. { rewrite (rebuilt cfg1 fcs _ _ _ _ body s d b1 (plain_read cfg1 fcs _ _ _ _ _ _ H1 W) eq_refl eq_refl eq_refl), built_across. cbn [option_map]. f_equal.
    apply plain_sent; [exact H2|exact W|apply RM; [lia|exact L1]]. }
  split; [exact P|].
  split. { rewrite (rebuilt cfg2 fcs _ _ _ _ body s d me' (plain_read cfg2 fcs _ _ _ _ _ _ H3 W) eq_refl eq_refl eq_refl), built_down. cbn [option_map]. f_equal.
    apply plain_sent; [exact H4|exact W|apply RM; [lia|exact L2]]. }
  now apply down_arrives.
Qed.

(** ** Statements *)
Lemma hops_exact fcs hops k h body : ok_data_header h -> wf_bytes body -> (std_has_payload (subtype_number h) = false -> body = []) ->
  Forall (good_hop (length (enc_frame fcs (enc_data h body)))) (hops ++ [k]) ->
  pass_along fcs (hops ++ [k]) (enc_frame fcs (enc_data h body)) = Ok (enc_frame fcs (enc_data (header_behind hops k h) body)).
Proof. intros H W E G. now apply path_passes. Qed.
Lemma hops_received fcs hops (reader : Cfg) h body : ok_data_header h -> wf_bytes body -> (std_has_payload (subtype_number h) = false -> body = []) ->
  Forall (good_hop (length (enc_frame fcs (enc_data h body)))) hops ->
  N.testbit (dh_flags h) 0 = true -> N.testbit (dh_flags h) 1 = true ->
  exists frame h', pass_along fcs hops (enc_frame fcs (enc_data h body)) = Ok frame /\
    pread (rd_data fcs) frame 0 = Ok (h', if std_has_payload (subtype_number h) then Some body else None) /\
    destination_address h' = destination_address h /\ source_address h' = source_address h /\
    dh_subtype h' = dh_subtype h /\ dh_flags h' = dh_flags h /\ dh_qos h' = dh_qos h /\ dh_ht h' = dh_ht h /\
    let odd := Nat.odd (length (filter big_endian hops) + if @native_le reader then 0 else 1) in
    dh_duration h' = twisted odd (dh_duration h) /\ dh_seq h' = twisted odd (dh_seq h).
Proof.
  intros H W E G T F.
  assert (X : exists h0 odd0, pass_along fcs hops (enc_frame fcs (enc_data h body)) = Ok (enc_frame fcs (enc_data h0 body)) /\ ok_data_header h0 /\
    destination_address h0 = destination_address h /\ source_address h0 = source_address h /\
    dh_subtype h0 = dh_subtype h /\ dh_flags h0 = dh_flags h /\ dh_qos h0 = dh_qos h /\ dh_ht h0 = dh_ht h /\
    odd0 = Nat.odd (length (filter big_endian hops)) /\ dh_duration h0 = twisted odd0 (dh_duration h) /\ dh_seq h0 = twisted odd0 (dh_seq h)).
  { destruct hops as [|j hops]; [exists h, false; cbn [pass_along filter length]; now repeat split; try apply H|].
    assert (NE : j :: hops <> []) by discriminate. destruct (exists_last NE) as (l & k & E'). rewrite E' in *. clear j hops NE E'.
    exists (header_behind l k h), (Nat.odd (length (filter big_endian (l ++ [k])))).
    split; [now apply hops_exact|]. split; [now apply (behind_ok _ l k h G)|]. destruct (path_roles l k h H T F) as [A B].
    split; [exact A|]. split; [exact B|]. repeat split. }
  destruct X as (h0 & odd0 & P & H0 & D & S & T0 & F0 & Q0 & K0 & O & U & V).
  assert (N0 : subtype_number h0 = subtype_number h) by (unfold subtype_number; now rewrite T0).
  assert (SD : destination_address (swapped_header h0) = destination_address h0) by reflexivity.
  assert (SS : source_address (swapped_header h0) = source_address h0) by reflexivity.
  exists (enc_frame fcs (enc_data h0 body)), (if native_le then h0 else swapped_header h0). split; [exact P|].
  split; [rewrite read_anywhere; [unfold shown; now rewrite N0|exact H0|split; [exact W|now rewrite N0]]|].
  destruct (@native_le reader).
  - rewrite Nat.add_0_r, <- O. now repeat split.
  - split; [now rewrite SD|]. split; [now rewrite SS|]. do 4 (split; [assumption|]). rewrite Nat.add_comm. cbn [Nat.add]. rewrite odd_S, <- O.
    destruct H as (_ & _ & Hd & _ & _ & _ & Hs & _). cbn [swapped_header dh_duration dh_seq]. rewrite U, V.
    change (swapped (twisted odd0 (dh_duration h))) with (twisted true (twisted odd0 (dh_duration h))).
    change (swapped (twisted odd0 (dh_seq h))) with (twisted true (twisted odd0 (dh_seq h))). rewrite !twisted_twice by assumption. split; reflexivity.
Qed.
