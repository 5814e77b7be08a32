(** Theorems about aggregated messages. *)
From Verif Require Import Base SpecBase Common Elements Mgmt SpecMgmt Amsdu Data SpecData Generic SpecGeneric SpecNoise SpecAggregate AggregateFacts AggregateFacts2.

(** ** C91: aggregation does not change what is delivered *)
(** Whatever is packed together, lost, damaged, repeated or sent by others in between: delivered are exactly the messages of the packets that arrive undamaged, with
    destination, source and content, in the order of arrival and, within a packet, of packing. What is missing: A-MSDUs as the standard has them, see below. *)
Theorem C91_delivered_partial : forall (cfg : Cfg) l, unpacks l -> forall air due, traffic l air due -> deliver l air = Ok due.
Proof. exact @delivered_messages. Qed.
Print Assumptions C91_delivered_partial.
(** Every packing can be written, and the same messages arrive, however they are packed. *)
Theorem C91_every_packing : forall (cfg : Cfg) l, unpacks l -> forall ps, Forall ok_packet ps ->
  exists fs, Forall2 (fun p f => packet_frame p = Ok f) ps fs /\ deliver l fs = Ok (concat (map inside ps)).
Proof. exact @every_packing. Qed.
Print Assumptions C91_every_packing.
Example C91_ex : forall (cfg : Cfg), unpacks agg_arms /\ Forall ok_packet packing1 /\ Forall ok_packet packing2 /\
  concat (map inside packing1) = [small; tiny; small] /\ concat (map inside packing2) = [small; tiny; small].
Proof. exact (fun cfg => conj agg_unpacks packings). Qed.
(** Packets as the standard has them: of one the message is lost, another one stops the receiver with a panic. *)
Theorem C91_standard_refuted : forall (cfg : Cfg) l, unpacks l ->
  (exists h m, unprotected h /\ std_amsdu h = true /\ ok_sub m /\ deliver l [enc_frame true (enc_data h (standard_amsdu [m]))] = Ok []) /\
  (exists h m, unprotected h /\ std_amsdu h = true /\ ok_sub m /\ deliver l [enc_frame true (enc_data h (standard_amsdu [m]))] = Panic).
Proof. exact @standard_packets. Qed.
Print Assumptions C91_standard_refuted.
