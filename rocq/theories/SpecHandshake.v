(** Specification for the four-way handshake as a whole. *)
From Verif Require Import Base SpecBase Elements SpecElements Eapol.

(** identifiers that cannot be confused with the padding 0xdd 0x00 0x00 ... of key data, which reads as a vendor specific
    element (221) and SSID elements (0) without information *)
Definition key_data_id (id : ElementID) : Prop :=
  match id with Id i => i <> 0%N /\ i <> 221%N | _ => True end.
(** The first [n] of the elements that padding looks like: an empty vendor specific element and empty SSIDs *)
Definition padding_elements (n : nat) : list RawElement := firstn n (mkRaw 221 [] :: repeat (mkRaw 0 []) 7).
(** all fields but the MIC and the key data *)
Definition same_fields {P Q} (k : KeyFrame P) (k' : KeyFrame Q) : Prop :=
  key_information k' = key_information k /\ key_length k' = key_length k /\ key_replay_counter k' = key_replay_counter k /\
  key_nonce k' = key_nonce k /\ key_iv k' = key_iv k /\ key_rsc k' = key_rsc k.
