(** EAPOL key frames: /repo/src/crypto/eapol.rs. *)
From Verif Require Import Base Bits Layouts Enums Common Mgmt Rsn Data.

(** eapol.rs:35-64 [KeyInformation]: the raw number; its fields are those of [KeyInformation_layout] *)
Definition ki_key_mic (ki : N) : bool := lgetb KeyInformation_layout "key_mic" ki.
Definition ki_encrypted_key_data (ki : N) : bool := lgetb KeyInformation_layout "encrypted_key_data" ki.

(** eapol.rs:73-94; [P] is a byte string when read and a [Container] when written *)
Record KeyFrame (P : Type) := mkKF {
  key_information : N; key_length : N; key_replay_counter : N; key_nonce : bytes; key_iv : N; key_rsc : N;
  key_mic : bytes; key_data : P
}.
Arguments mkKF {P}.
Arguments key_information {P}. Arguments key_length {P}. Arguments key_replay_counter {P}. Arguments key_nonce {P}.
Arguments key_iv {P}. Arguments key_rsc {P}. Arguments key_mic {P}. Arguments key_data {P}.

Section Eapol.
Context {cfg : Cfg}.
(** eapol.rs:95-153; the fields from the descriptor type on are read from [packet_body], which starts
    at the protocol version *)
Definition rd_key_frame (akm : AkmType) : reader (KeyFrame bytes) := fun from =>
  '(_, off) <- gread rd_u8 from 0 ;;
  '(packet_type, off) <- gread rd_u8 from off ;;
  if negb (packet_type =? 3)%N then Err BadInput
  else
    '(body_length, off) <- gread (rd_be 2) from off ;;
    packet_body <- pread (rd_bytes (N.to_nat body_length + 4)) from 0 ;;
    '(descriptor_type, off) <- gread rd_u8 packet_body off ;;
    if negb (descriptor_type =? 2)%N then Err BadInput
    else
      '(info, off) <- gread (rd_be 2) packet_body off ;;
      '(len, off) <- gread (rd_be 2) packet_body off ;;
      '(counter, off) <- gread (rd_be 8) packet_body off ;;
      '(nonce, off) <- gread (rd_bytes 32) packet_body off ;;
      '(iv, off) <- gread (rd_be 16) packet_body off ;;
      '(rsc, off) <- gread (rd_be 8) packet_body off ;;
      let off := off + 8 in
      match key_mic_len akm with
      | None => Err BadInput
      | Some mic_len =>
        '(mic, off) <- gread (rd_bytes mic_len) packet_body off ;;
        '(data_length, off) <- gread (rd_be 2) packet_body off ;;
        '(data, off) <- gread (rd_bytes (N.to_nat data_length)) packet_body off ;;
        Ok (mkKF info len counter nonce iv rsc mic data, off)
      end.
(** eapol.rs:154-172 *)
Definition kf_measure (k : KeyFrame Container) : nat :=
  1 + 1 + 2 + 1 + 2 + 2 + 8 + 32 + 16 + 8 + 8 + length (key_mic k) + 2 + c_measure (key_data k).
(** eapol.rs:173-212; [as u16] drops the higher bits *)
Definition wr_key_frame (k : KeyFrame Container) : writer := fun buf =>
  '(buf, off) <- wseq_from [wr_u8 2; wr_u8 3] buf 0 ;;
  let body_length_offset := off in
  let off := off + 2 in
  '(buf, off) <- wseq_from [wr_u8 2; wr_be 2 (key_information k); wr_be 2 (key_length k); wr_be 8 (key_replay_counter k);
                            wr_bytes (key_nonce k); wr_be 16 (key_iv k); wr_be 8 (key_rsc k); wr_be 8 0; wr_bytes (key_mic k)] buf off ;;
  let data_length_offset := off in
  let off := off + 2 in
  '(buf, off) <- gwrite (c_write (key_data k)) buf off ;;
  '(buf, _) <- pwrite (wr_be 2 (N.of_nat (off - data_length_offset - 2) mod 65536)) buf data_length_offset ;;
  '(buf, _) <- pwrite (wr_be 2 (N.of_nat (off - body_length_offset - 2) mod 65536)) buf body_length_offset ;;
  Ok (buf, off).
Definition c_key_frame (k : KeyFrame Container) : Container := mkC (kf_measure k) (wr_key_frame k).

(** [SnapLlcFrame] of the llc-rs crate (not in /repo, modelled from its documentation): DSAP and SSAP
    0xaa, control 3, OUI, EtherType in network byte order, payload *)
Record Snap (P : Type) := mkSnap { snap_oui : bytes; snap_ether_type : N; snap_payload : P }.
Definition c_snap (s : Snap Container) : Container :=
  mkC (8 + c_measure (snap_payload _ s))
      (wseq [wr_bytes [0xaa; 0xaa; 3]%N; wr_bytes (snap_oui _ s); wr_be 2 (snap_ether_type _ s); c_write (snap_payload _ s)]).
End Eapol.
Arguments mkSnap {P}. Arguments snap_oui {P}. Arguments snap_ether_type {P}. Arguments snap_payload {P}.

(** eapol.rs:66-67 *)
Definition EapolDataFrame : Type := DataHeader * option (Snap (KeyFrame Container)).
(** the same as data frame to be written *)
Definition eapol_data {cfg : Cfg} (d : EapolDataFrame) : DataFrame Container :=
  (fst d, match snd d with
          | Some s => Some (c_snap (mkSnap (snap_oui s) (snap_ether_type s) (c_key_frame (snap_payload s))))
          | None => None
          end).
(** eapol.rs:214-219: start and end *)
Definition eapol_mic_range (d : EapolDataFrame) : option (nat * nat) :=
  match snd d with
  | Some s =>
    let mic_length := length (key_mic (snap_payload s)) in
    let mic_start := dh_length (fst d) + 8 + 1 + 1 + 2 + 1 + 2 + 2 + 8 + 32 + 16 + 8 + 8 in
    Some (mic_start, mic_start + mic_length)
  | None => None
  end.
(** eapol.rs:221-236 *)
Definition eapol_key_data_length_range (d : EapolDataFrame) : option (nat * nat) :=
  match snd d with
  | Some s =>
    let start := dh_length (fst d) + 8 + 1 + 1 + 2 + 1 + 2 + 2 + 8 + 32 + 16 + 8 + 8 + length (key_mic (snap_payload s)) in
    Some (start, start + 2)
  | None => None
  end.
(** eapol.rs:238-254: start *)
Definition eapol_key_data_range (d : EapolDataFrame) : option nat :=
  match snd d with
  | Some s =>
    Some (dh_length (fst d) + 8 + 1 + 1 + 2 + 1 + 2 + 2 + 8 + 32 + 16 + 8 + 8 + length (key_mic (snap_payload s)) + 2)
  | None => None
  end.
