(** A-MSDUs in traffic: an example, and what the standard has. *)
From Verif Require Import Base SpecBase BaseFacts Enums Common Elements SpecElementTypes Mgmt SpecMgmt MgmtFacts5 CryptoHeader Amsdu Data SpecData DataFacts5 Generic SpecGeneric SpecNoise NoiseFacts SpecAggregate AggregateFacts.

Lemma standard_frame {cfg : Cfg} l h body r : unpacks l -> unprotected h -> wf_bytes body -> unpack (h, Some body) = r ->
  deliver l [enc_frame true (enc_data h body)] = (ms <- r ;; Ok (ms ++ [])).
Proof.
  intros U UH W <-. pose proof (frame_sent l U h body _ UH W eq_refl) as S. unfold deliver. cbn [station]. rewrite (sent_runs l _ _ (proj1 U) S). reflexivity.
Qed.
Definition agg_header : DataHeader := dhdr Dt_QoSData 1 None (Some [128; 0]%N) None.
Definition one_header : DataHeader := dhdr Dt_QoSData 1 None (Some [0; 0]%N) None.
Definition small : Message := mkSub (addr 3) (addr 2) [170; 187]%N.
Definition large : Message := mkSub (addr 3) (addr 2) (repeat 7%N 257).
Definition tiny : Message := mkSub (addr 9) (addr 2) [].
Lemma addr_ok n : (n < 256)%N -> address (addr n).
Proof. intros H. split; [reflexivity|]. unfold addr. repeat (constructor; [reflexivity|]). constructor; [exact H|constructor]. Qed.
Lemma agg_unprotected q : (q < 256)%N -> unprotected (dhdr Dt_QoSData 1 None (Some [q; 0]%N) None).
Proof.
  intros Q. split; [|split; reflexivity].
  split; [split; reflexivity|]. split; [reflexivity|]. split; [reflexivity|]. split; [now apply addr_ok|]. split; [now apply addr_ok|]. split; [now apply addr_ok|].
  split; [reflexivity|]. split; [reflexivity|]. split; [|reflexivity]. split; [reflexivity|]. split; [reflexivity|]. constructor; [exact Q|]. constructor; [reflexivity|constructor].
Qed.
Lemma ok_small : ok_sub small.
Proof. split; [now apply addr_ok|]. split; [now apply addr_ok|]. split; [now apply wf_bytesb_spec|reflexivity]. Qed.
Lemma ok_tiny : ok_sub tiny.
Proof. split; [now apply addr_ok|]. split; [now apply addr_ok|]. split; [constructor|reflexivity]. Qed.
Lemma ok_large : ok_sub large.
Proof. split; [now apply addr_ok|]. split; [now apply addr_ok|]. split; [now apply wf_bytesb_spec|reflexivity]. Qed.
(** three messages, two of them together, and one by one (as far as their addresses allow) *)
Definition packing1 : list Packet := [Together agg_header [small; tiny] (repeat 9%N 80); Alone one_header small (repeat 0%N 40)].
Definition packing2 : list Packet := [Alone one_header small (repeat 0%N 33); Together agg_header [tiny; small] (repeat 0%N 80)].
Lemma packings {cfg : Cfg} : Forall ok_packet packing1 /\ Forall ok_packet packing2 /\
  concat (map inside packing1) = [small; tiny; small] /\ concat (map inside packing2) = [small; tiny; small].
Proof.
  assert (T : forall a b buf, ok_sub a -> ok_sub b -> wf_bytes buf -> dh_length agg_header + padded_length [a; b] + 4 + 1 <= length buf -> ok_packet (Together agg_header [a; b] buf)).
  { intros a b buf A B W L. split; [now apply agg_unprotected|]. split; [reflexivity|]. split; [discriminate|]. split; [constructor; [exact A|constructor; [exact B|constructor]]|].
    split; [exact W|]. unfold slack. destruct strict_end; lia. }
  assert (S : forall buf, 33 <= length buf -> ok_packet (Alone one_header small buf)).
  { intros buf L. split; [now apply agg_unprotected|]. split; [reflexivity|]. split; [reflexivity|]. split; [reflexivity|]. split; [now apply wf_bytesb_spec|].
    split; [right; discriminate|]. unfold slack, enc_frame, enc_data, enc_fcf, enc_data_header. rewrite !app_length, !le_bytes_length. cbn. destruct strict_end; lia. }
  split; [|split; [|split; reflexivity]].
  - constructor; [apply T; [exact ok_small|exact ok_tiny|now apply wf_bytesb_spec|vm_compute; lia]|]. constructor; [apply S; cbn; lia|constructor].
  - constructor; [apply S; cbn; lia|]. constructor; [apply T; [exact ok_tiny|exact ok_small|now apply wf_bytesb_spec|vm_compute; lia]|constructor].
Qed.
Definition agg_arms {cfg : Cfg} : list (nat * Arm (Res serr (list Message))) := [(12, mkArm _ _ data_kind rd_data unpack)].
Lemma agg_unpacks {cfg : Cfg} : unpacks agg_arms.
Proof. split; [|left; reflexivity]. split; [cbn; repeat constructor; cbn; intuition discriminate|]. repeat constructor; eexists; reflexivity. Qed.
(** ** Packets as the standard has them *)
Lemma standard_packets {cfg : Cfg} l : unpacks l ->
  (exists h m, unprotected h /\ std_amsdu h = true /\ ok_sub m /\ deliver l [enc_frame true (enc_data h (standard_amsdu [m]))] = Ok []) /\
  (exists h m, unprotected h /\ std_amsdu h = true /\ ok_sub m /\ deliver l [enc_frame true (enc_data h (standard_amsdu [m]))] = Panic).
Proof.
  intros U. split.
  - exists agg_header, small. split; [now apply agg_unprotected|]. split; [reflexivity|]. split; [exact ok_small|].
    rewrite (standard_frame l agg_header (standard_amsdu [small]) (Ok []) U); [reflexivity|now apply agg_unprotected|now apply wf_bytesb_spec|].
    destruct cfg as [[] [] []]; vm_compute; reflexivity.
  - exists agg_header, large. split; [now apply agg_unprotected|]. split; [reflexivity|]. split; [exact ok_large|].
    rewrite (standard_frame l agg_header (standard_amsdu [large]) Panic U); [reflexivity|now apply agg_unprotected|now apply wf_bytesb_spec|].
    destruct cfg as [[] [] []]; vm_compute; reflexivity.
Qed.
