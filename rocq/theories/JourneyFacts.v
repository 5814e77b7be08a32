(** Proofs about frames that are passed on. *)
From Verif Require Import Base BaseFacts SpecBase Enums Common SpecCommon Crc CrcFacts Elements ElementTypes SpecElementTypes Mgmt CommonFacts SpecMgmt MgmtFacts3 MgmtFacts5 MgmtFacts2 Data SpecData
  DataFacts DataFacts2 DataFacts3 ForwardFacts InjectiveFacts SpecPortable PortableFacts RelayFacts Builder SpecBuilder BuilderFacts BuilderFacts2 SpecJourney.

Definition shown (h : DataHeader) (body : bytes) : option bytes := if std_has_payload (subtype_number h) then Some body else None.
Definition fits (h : DataHeader) (body : bytes) : Prop := wf_bytes body /\ (std_has_payload (subtype_number h) = false -> body = []).
Lemma fits_payload (cfg : Cfg) h body : fits h body -> payload_ok h (option_map c_bytes (shown h body)) body.
Proof.
  intros [W E]. unfold shown. destruct (std_has_payload (subtype_number h)) eqn:P; cbn [option_map payload_ok].
  - split; [exact P|]. split; [exact W|]. apply (proj1 (c_bytes_T body)).
  - split; [exact P|now apply E].
Qed.
Lemma read_anywhere (cfg : Cfg) fcs h body : ok_data_header h -> fits h body ->
  pread (rd_data fcs) (enc_frame fcs (enc_data h body)) 0 = Ok (if native_le then h else swapped_header h, shown h body).
Proof.
  intros H F. pose proof (fits_payload cfg h body F) as P.
  assert (E : match option_map c_bytes (shown h body) with Some _ => Some body | None => None end = shown h body)
    by (unfold shown; destruct (std_has_payload _); reflexivity).
  rewrite <- E. destruct native_le eqn:L.
  - apply (data_round_trip h (option_map c_bytes (shown h body)) body fcs H P). exact L.
  - now apply data_read_big.
Qed.
Lemma sent (cfg : Cfg) fcs h body buffer : ok_data_header h -> fits h body ->
  length (enc_frame fcs (enc_data h body)) + slack <= length buffer ->
  send cfg fcs (h, option_map c_bytes (shown h body)) buffer = Ok (enc_frame fcs (enc_data h body)).
Proof.
  intros H F L. destruct (data_round_trip h (option_map c_bytes (shown h body)) body fcs H (fits_payload cfg h body F)) as [W _].
  unfold send. rewrite (writes_ok _ _ W _ L). cbn [rbind]. now rewrite firstn_app, Nat.sub_diag, firstn_O, app_nil_r, firstn_all.
Qed.

(** ** Hops *)
Definition at_hop (k : Hop) (h : DataHeader) : DataHeader :=
  set_a2 (hop_me k) (set_a1 (hop_next k) (if @native_le (hop_machine k) then h else swapped_header h)).
Lemma at_hop_ok n k h : good_hop n k -> ok_data_header h -> ok_data_header (at_hop k h).
Proof.
  intros (M & X & _) H. unfold at_hop. set (g := if native_le then h else swapped_header h).
  assert (G : ok_data_header g) by (subst g; destruct native_le; [exact H|now apply swapped_ok]).
  destruct G as (C & Fl & D & A1 & A2 & A3 & S & R). repeat (split; [assumption|]). exact R.
Qed.
Lemma at_hop_number k h : subtype_number (at_hop k h) = subtype_number h.
Proof. unfold at_hop. now destruct native_le. Qed.
Lemma at_hop_length n k fcs h body : good_hop n k -> ok_data_header h ->
  length (enc_frame fcs (enc_data (at_hop k h) body)) = length (enc_frame fcs (enc_data h body)).
Proof.
  intros ((M & _) & (X & _) & _) (_ & _ & _ & (A1 & _) & (A2 & _) & _).
  assert (E : length (enc_data (at_hop k h) body) = length (enc_data h body)).
  { unfold enc_data, enc_data_header, at_hop, enc_fcf. destruct native_le; rewrite !app_length, ?le_bytes_length; cbn [set_a1 set_a2 swapped_header dh_a1 dh_a2 dh_a3 dh_a4 dh_qos dh_ht length]; rewrite M, X, A1, A2; reflexivity. }
  unfold enc_frame. destruct fcs; [|exact E]. rewrite !app_length, E. reflexivity.
Qed.
Lemma hop_passes fcs k h body : ok_data_header h -> fits h body -> good_hop (length (enc_frame fcs (enc_data h body))) k ->
  pass_on fcs k (enc_frame fcs (enc_data h body)) = Ok (enc_frame fcs (enc_data (at_hop k h) body)).
Proof.
  intros H F G. unfold pass_on. rewrite (read_anywhere (hop_machine k)) by assumption. cbn [rbind].
  fold (at_hop k h). replace (shown h body) with (shown (at_hop k h) body) by (unfold shown; now rewrite at_hop_number).
  apply sent; [now apply (at_hop_ok _ k h G)|unfold fits; now rewrite at_hop_number|].
  rewrite (at_hop_length _ k fcs h body G H). apply G.
Qed.
Lemma odd_S n : Nat.odd (S n) = negb (Nat.odd n).
Proof. rewrite Nat.odd_succ. symmetry. apply Nat.negb_odd. Qed.
Lemma twisted_twice b c v : u16 v -> twisted c (twisted b v) = twisted (xorb c b) v.
Proof. intros U. destruct b, c; cbn [twisted xorb]; try reflexivity. now apply swapped_twice. Qed.
Lemma at_hop_behind k h : ok_data_header h -> at_hop k h = header_behind [] k h.
Proof.
  intros _. unfold at_hop, header_behind, big_endian. cbn [app filter]. destruct (@native_le (hop_machine k)); cbn [negb length Nat.odd twisted]; reflexivity.
Qed.
Lemma behind_cons k hops l h : ok_data_header h -> header_behind hops l (at_hop k h) = header_behind (k :: hops) l h.
Proof.
  intros (_ & _ & D & _ & _ & _ & S & _). unfold header_behind. cbn [app filter].
  assert (E : forall v, u16 v -> twisted (Nat.odd (length (filter big_endian (hops ++ [l])))) (twisted (big_endian k) v)
     = twisted (Nat.odd (length (if big_endian k then k :: filter big_endian (hops ++ [l]) else filter big_endian (hops ++ [l])))) v).
  { intros v U. rewrite twisted_twice by exact U. f_equal. destruct (big_endian k); [|apply xorb_false_r]. cbn [length]. rewrite odd_S. apply xorb_true_r. }
  rewrite <- !E by assumption. unfold at_hop, big_endian. destruct (@native_le (hop_machine k)); reflexivity.
Qed.
Lemma path_passes fcs body hops : forall h k, ok_data_header h -> fits h body ->
  Forall (good_hop (length (enc_frame fcs (enc_data h body)))) (hops ++ [k]) ->
  pass_along fcs (hops ++ [k]) (enc_frame fcs (enc_data h body)) = Ok (enc_frame fcs (enc_data (header_behind hops k h) body)).
Proof.
  induction hops as [|j hops IH]; intros h k H F G; cbn [app] in *; inversion_clear G as [|? ? G1 G2]; cbn [pass_along];
    rewrite hop_passes by assumption; cbn [rbind].
  - now rewrite at_hop_behind.
  - rewrite IH; [now rewrite behind_cons|now apply (at_hop_ok _ j h G1)|unfold fits; now rewrite at_hop_number|].
    now rewrite (at_hop_length _ j fcs h body G1 H).
Qed.
Lemma behind_ok n hops k h : Forall (good_hop n) (hops ++ [k]) -> ok_data_header h -> ok_data_header (header_behind hops k h).
Proof.
  intros G (C & Fl & D & A1 & A2 & A3 & S & R). apply Forall_app in G as [_ G]. inversion_clear G as [|? ? (M & X & _) _].
  assert (T : forall b v, u16 v -> u16 (twisted b v)) by (intros [] v U; [now apply swapped_u16|exact U]).
  unfold header_behind. repeat (split; [first [assumption|now apply T]|]). exact R.
Qed.
Lemma path_roles hops k h : ok_data_header h -> N.testbit (dh_flags h) 0 = true -> N.testbit (dh_flags h) 1 = true ->
  destination_address (header_behind hops k h) = destination_address h /\ source_address (header_behind hops k h) = source_address h.
Proof.
  intros H T F.
  assert (to_ds (dh_flags h) = true) as T' by (rewrite (proj1 (flag_bits _)); exact T).
  assert (from_ds (dh_flags h) = true) as F' by (rewrite (proj1 (proj2 (flag_bits _))); exact F).
  unfold destination_address, source_address, is_amsdu. cbn [header_behind dh_flags dh_subtype dh_qos dh_a3 dh_a4]. now rewrite T', F'.
Qed.
