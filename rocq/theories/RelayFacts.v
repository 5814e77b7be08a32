(** Proofs about relaying data frames on big endian machines. *)
From Verif Require Import Base BaseFacts SpecBase Enums Common SpecCommon Crc CrcFacts Elements ElementTypes SpecElementTypes Mgmt SpecMgmt MgmtFacts3 MgmtFacts5 MgmtFacts2 Data SpecData DataFacts DataFacts2 DataFacts3 ForwardFacts
  InjectiveFacts SpecPortable PortableFacts.

Lemma swapped_u16 v : u16 v -> u16 (swapped v).
Proof.
  unfold u16, swapped. intros U. assert (v / 256 < 256)%N by (apply N.div_lt_upper_bound; [lia|exact U]). pose proof (N.mod_lt v 256). lia.
Qed.
Lemma swapped_parts v : u16 v -> (swapped v mod 256 = v / 256 /\ swapped v / 256 = v mod 256)%N.
Proof.
  unfold u16. intros U. assert (H : (v / 256 < 256)%N) by (apply N.div_lt_upper_bound; [lia|exact U]).
  assert (S : swapped v = (v / 256 + (v mod 256) * 256)%N) by (unfold swapped; lia). rewrite S.
  rewrite N.mod_add, N.div_add by lia. rewrite (N.mod_small (v / 256)), (N.div_small (v / 256)) by exact H. split; [reflexivity|lia].
Qed.
Lemma swapped_twice v : u16 v -> swapped (swapped v) = v.
Proof. intros U. destruct (swapped_parts v U) as [A B]. unfold swapped at 1. rewrite A, B. symmetry. apply N.div_mod'. Qed.
Lemma swapped_bytes v : u16 v -> le_bytes 2 (swapped v) = rev (le_bytes 2 v).
Proof.
  intros U. destruct (swapped_parts v U) as [A B]. cbn [le_bytes rev app]. rewrite A, B.
  rewrite N.mod_mod by lia. rewrite (N.mod_small (v / 256)); [reflexivity|]. apply N.div_lt_upper_bound; [lia|exact U].
Qed.
Lemma swapped_ok h : ok_data_header h -> ok_data_header (swapped_header h).
Proof. intros (C & F & D & A1 & A2 & A3 & S & R). repeat (split; [first [assumption|now apply swapped_u16]|]). exact R. Qed.

(** a big endian machine passes a data frame on with the bytes of the duration and of the sequence control exchanged *)
Lemma data_relay_big {cfg : Cfg} fcs bs h (p : option bytes) n : native_le = false -> wf_bytes bs -> rd_data fcs bs = Ok ((h, p), n) ->
  exists b0 flags d1 d2 addresses s1 s2 rest tail, length addresses = 18 /\ (p <> None -> tail = []) /\
    bs = enc_frame fcs ([b0; flags; d1; d2] ++ addresses ++ [s1; s2] ++ rest ++ tail) /\
    Writes (wr_data (h, match p with Some b => Some (c_bytes b) | None => None end) fcs)
      (enc_frame fcs ([(b0 - b0 mod 4)%N; flags; d2; d1] ++ addresses ++ [s2; s1] ++ rest)).
Proof.
  intros NL W R.
  assert (X : exists f, bs = enc_frame fcs f /\ rd_data false f = Ok ((h, p), n) /\ wf_bytes f).
  { destruct fcs.
    - rewrite rd_data_fcs in R. destruct (strip_and_validate_fcs bs) as [f| |] eqn:S; cbn [rbind] in R; try discriminate.
      apply (strip_fcs_spec bs W) in S. exists f. split; [exact S|]. split; [exact R|]. subst bs. now apply wf_bytes_app in W.
    - exists bs. now split. }
  clear R W. destruct X as (f & -> & R & W).
  assert (EQ : cfg = on_big cfg) by (destruct cfg as [s l o]; cbn in NL; subst l; reflexivity).
  assert (R' : @rd_data (on_big cfg) false f = Ok ((h, p), n)) by (rewrite <- EQ; exact R).
  rewrite data_swapped in R' by exact W. destruct (@rd_data (on_little cfg) false f) as [[[h0 p0] n0]| |] eqn:RL; try discriminate.
  cbn [rmap] in R'. assert (h = swapped_header h0) as -> by congruence. assert (p0 = p) as -> by congruence. clear R'.
  pose proof (@rd_data_spec (on_little cfg) f W eq_refl) as S. rewrite RL in S. destruct S as (b0 & body & H & B0 & T & SN & Ef & En & Ep).
  assert (Wb : wf_bytes body).
  { rewrite Ef in W. apply wf_bytes_app in W as [_ W]. now apply wf_bytes_app in W as [_ W]. }
  pose proof (swapped_ok h0 H) as H'. pose proof H as (_ & _ & HD & (L1 & _) & (L2 & _) & (L3 & _) & HS & _).
  assert (V : enc_fcf 2 (subtype_number (swapped_header h0)) (dh_flags (swapped_header h0)) = [(b0 - b0 mod 4)%N; dh_flags h0]).
  { change (subtype_number (swapped_header h0)) with (subtype_number h0). unfold enc_fcf. rewrite SN. f_equal.
    clear - B0 T. assert (b0 = 16 * (b0 / 16) + b0 mod 16)%N by (apply N.div_mod'). lia. }
  assert (EH : enc_data_header (swapped_header h0) = rev (le_bytes 2 (dh_duration h0)) ++ dh_a1 h0 ++ dh_a2 h0 ++ dh_a3 h0 ++ rev (le_bytes 2 (dh_seq h0)) ++
    enc_opt (dh_a4 h0) ++ enc_opt (dh_qos h0) ++ enc_opt (dh_ht h0)).
  { rewrite <- !swapped_bytes by assumption. reflexivity. }
  set (opts := enc_opt (dh_a4 h0) ++ enc_opt (dh_qos h0) ++ enc_opt (dh_ht h0)) in *.
  change (subtype_number h0) with (subtype_number (swapped_header h0)) in Ep.
  exists b0, (dh_flags h0), (dh_duration h0 mod 256)%N, ((dh_duration h0 / 256) mod 256)%N, (dh_a1 h0 ++ dh_a2 h0 ++ dh_a3 h0),
    (dh_seq h0 mod 256)%N, ((dh_seq h0 / 256) mod 256)%N, (opts ++ match p with Some b => b | None => [] end),
    (match p with Some _ => [] | None => body end).
  split; [rewrite !app_length, L1, L2, L3; reflexivity|]. split; [destruct p; [reflexivity|congruence]|].
  assert (SUM : match p with Some b => b | None => [] end ++ match p with Some _ => [] | None => body end = body).
  { rewrite Ep. destruct (std_has_payload _); [apply app_nil_r|reflexivity]. }
  split.
  - f_equal. rewrite Ef. unfold enc_data_header. fold opts. cbn [le_bytes]. rewrite <- !app_assoc. cbn [app]. now rewrite SUM.
  - assert (A : Writes (wr_data (swapped_header h0, match p with Some b => Some (c_bytes b) | None => None end) fcs)
       (enc_frame fcs (enc_data (swapped_header h0) match p with Some b => b | None => [] end))).
    { refine (proj1 (data_round_trip _ _ _ fcs H' _)). rewrite Ep. destruct (std_has_payload (subtype_number (swapped_header h0))) eqn:SP; cbn.
      - split; [exact SP|]. split; [exact Wb|apply c_bytes_T].
      - now split. }
    unfold enc_data in A. rewrite V, EH in A. cbn [le_bytes rev app] in A |- *. rewrite <- !app_assoc in A. cbn [app] in A. rewrite <- !app_assoc. exact A.
Qed.
(** and a second one restores them *)
Lemma data_relay_twice h : ok_data_header h -> swapped_header (swapped_header h) = h.
Proof.
  intros (_ & _ & D & _ & _ & _ & S & _). destruct h as [t f d a1 a2 a3 s a4 q ht]. unfold swapped_header. cbn in *. now rewrite !swapped_twice.
Qed.
Lemma data_read_big {cfg : Cfg} h p body fcs : native_le = false -> ok_data_header h -> payload_ok h p body ->
  pread (rd_data fcs) (enc_frame fcs (enc_data h body)) 0 = Ok (swapped_header h, match p with Some _ => Some body | None => None end).
Proof.
  intros NL H P.
  destruct cfg as [s l o]. cbn in NL. subst l. set (c := {| strict_end := s; native_le := false; overflow_checks := o |}) in *.
  change c with (on_big c) at 1 2. assert (P' : @payload_ok (on_little c) h p body).
  { destruct p as [k|]; [|exact P]. destruct P as (A & B & [W1 W2]). split; [exact A|]. split; [exact B|]. split; [exact W1|exact W2]. }
  assert (Wb : wf_bytes (enc_frame fcs (enc_data h body))).
  { assert (E : wf_bytes (enc_data h body)).
    { apply enc_data_wf; [exact H|]. destruct p; cbn [payload_ok] in P; [tauto|]. destruct P as [_ ->]. constructor. }
    destruct fcs; [|exact E]. apply wf_bytes_app. split; [exact E|apply le_bytes_wf]. }
  pose proof (proj2 (proj2 (@data_round_trip (on_little c) h p body fcs H P')) eq_refl) as R.
  unfold pread, gread in R |- *. change (@end_bad (on_big c)) with (@end_bad (on_little c)).
  destruct (@end_bad (on_little c) _ _); [discriminate|]. cbn [skipn] in *. rewrite data_swapped by exact Wb.
  destruct (@rd_data (on_little c) fcs _) as [[[h' p'] n]| |]; try discriminate. cbn [rmap rbind] in *. assert (h' = h) as -> by congruence. assert (p' = match p with Some _ => Some body | None => None end) as -> by congruence. reflexivity.
Qed.
