(** Specification of EAPOL key frames (IEEE 802.11-2020, 12.7.2, Figure 12-33) and of the key hierarchy. *)
From Verif Require Import Base SpecBase Mgmt SpecMgmt SpecElementTypes Data SpecData Rsn Eapol.

(** ** Key frames *)
(** The fields fit into their widths and the whole frame into its 16 bit length. *)
Definition ok_key_frame (k : KeyFrame bytes) : Prop :=
  u16 (key_information k) /\ u16 (key_length k) /\ u64 (key_replay_counter k) /\
  length (key_nonce k) = 32 /\ wf_bytes (key_nonce k) /\ (key_iv k < 2 ^ 128)%N /\ u64 (key_rsc k) /\
  wf_bytes (key_mic k) /\ wf_bytes (key_data k) /\
  (N.of_nat (77 + length (key_mic k) + 2 + length (key_data k)) < 65536)%N.
(** descriptor, key information, key length, replay counter, nonce, IV, RSC, reserved *)
Definition enc_key_fields {P} (k : KeyFrame P) : bytes :=
  [2]%N ++ be_bytes 2 (key_information k) ++ be_bytes 2 (key_length k) ++ be_bytes 8 (key_replay_counter k) ++
  key_nonce k ++ be_bytes 16 (key_iv k) ++ be_bytes 8 (key_rsc k) ++ repeat 0%N 8.
(** body of an EAPOL packet *)
Definition enc_key_body (k : KeyFrame bytes) : bytes :=
  enc_key_fields k ++ key_mic k ++ be_bytes 2 (N.of_nat (length (key_data k))) ++ key_data k.
(** protocol version 2, packet type 3 (EAPOL-Key), length, body *)
Definition enc_key_frame (k : KeyFrame bytes) : bytes :=
  [2; 3]%N ++ be_bytes 2 (N.of_nat (length (enc_key_body k))) ++ enc_key_body k.
Definition with_data {P Q} (k : KeyFrame P) (d : Q) : KeyFrame Q :=
  mkKF (key_information k) (key_length k) (key_replay_counter k) (key_nonce k) (key_iv k) (key_rsc k) (key_mic k) d.
Definition with_mic {P} (k : KeyFrame P) (mic : bytes) : KeyFrame P :=
  mkKF (key_information k) (key_length k) (key_replay_counter k) (key_nonce k) (key_iv k) (key_rsc k) mic (key_data k).

(** LLC and SNAP header *)
Definition enc_snap (oui : bytes) (ether_type : N) : bytes := [0xaa; 0xaa; 3]%N ++ oui ++ be_bytes 2 ether_type.
(** a data frame (without FCS) that carries a key frame *)
Definition enc_eapol (h : DataHeader) (oui : bytes) (ether_type : N) (k : KeyFrame bytes) : bytes :=
  enc_data h (enc_snap oui ether_type ++ enc_key_frame k).
(** bytes [a] to [b] *)
Definition between_bytes (bs : bytes) (a b : nat) : bytes := firstn (b - a) (skipn a bs).
(** A received key frame: any protocol version, any reserved bytes, a length field that may count bytes behind the key data *)
Definition enc_received (version len : N) (reserved : bytes) (k : KeyFrame bytes) : bytes :=
  [version; 3]%N ++ be_bytes 2 len ++ [2]%N ++ be_bytes 2 (key_information k) ++ be_bytes 2 (key_length k) ++ be_bytes 8 (key_replay_counter k) ++
  key_nonce k ++ be_bytes 16 (key_iv k) ++ be_bytes 8 (key_rsc k) ++ reserved ++
  key_mic k ++ be_bytes 2 (N.of_nat (length (key_data k))) ++ key_data k.
