(** Specification of which keys depend on what: sessions of the four-way handshake (IEEE 802.11-2020, 12.7.1.3). *)
From Verif Require Import Base SpecBase.

(** what two stations bring along: the PMK, and an address and a nonce each *)
Record Session := mkSession { ss_pmk : bytes; ss_aa : bytes; ss_spa : bytes; ss_anonce : bytes; ss_snonce : bytes }.
Definition ok_session (s : Session) : Prop :=
  wf_bytes (ss_aa s) /\ length (ss_aa s) = 6 /\ wf_bytes (ss_spa s) /\ length (ss_spa s) = 6 /\
  wf_bytes (ss_anonce s) /\ length (ss_anonce s) = 32 /\ wf_bytes (ss_snonce s) /\ length (ss_snonce s) = 32.
(** the same two things in one order or the other *)
Definition same_pair (a b a' b' : bytes) : Prop := (a = a' /\ b = b') \/ (a = b' /\ b = a').
(** The standard takes the addresses and the nonces in ascending order, so that it does not matter which station counts as the first. *)
Definition same_session (s s' : Session) : Prop :=
  ss_pmk s = ss_pmk s' /\ same_pair (ss_aa s) (ss_spa s) (ss_aa s') (ss_spa s') /\
  same_pair (ss_anonce s) (ss_snonce s) (ss_anonce s') (ss_snonce s').
(** a label without zero byte *)
Definition plain_label (label : String.string) : Prop := ~ In Ascii.zero (String.list_ascii_of_string label).
