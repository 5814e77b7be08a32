(** What a receiver decrypts. *)
From Verif Require Import Base SpecBase Rsn KeyMgmt SpecEapol SpecKeyMgmt.

(** The packet at [e] of the frame [b] (without FCS) passes the check of the MIC and announces encrypted key data. *)
Definition to_decrypt (hmac : bytes -> bytes -> bytes) (kck : option bytes) (b : bytes) (akm : AkmType) (e m : nat) : Prop :=
  eapol_offset b e /\ key_mic_len akm = Some m /\ passes_mic hmac kck b e m /\ has_encrypted_data (info_at b e).
(** the key data of the packet at [e] as it was received; the MIC has [m] bytes *)
Definition data_at (b : bytes) (e m : nat) : bytes := between_bytes b (e + 81 + m + 2) (e + 81 + m + 2 + data_length_at b e m).
