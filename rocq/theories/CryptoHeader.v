(** CCMP/GCMP headers and wrapped payloads: /repo/src/crypto/crypto_header.rs. *)
From Verif Require Import Base Mgmt.

(** crypto_header.rs:12-15; the packet number is six bytes, the key ID a [u8] *)
Record CryptoHeader := mkCH { ch_pn : bytes; ch_key_id : N }.
(** crypto_header.rs:20 *)
Definition MAX_PN : N := (2 ^ 48 - 1)%N.
(** crypto_header.rs:22 *)
Definition MAX_KEY_ID : N := 3%N.
(** crypto_header.rs:35-37 *)
Definition pn_and_key_id_valid (packet_number key_id : N) : bool :=
  (packet_number <=? MAX_PN)%N || (key_id <=? MAX_KEY_ID)%N.
(** crypto_header.rs:28-33; the arguments are a [u64] and a [u8] *)
Definition ch_new (packet_number key_id : N) : option CryptoHeader :=
  if pn_and_key_id_valid packet_number key_id
  then Some (mkCH (firstn 6 (le_bytes 8 packet_number)) key_id) else None.
(** crypto_header.rs:41-45 *)
Definition ch_packet_number (h : CryptoHeader) : N := le_val (ch_pn h ++ [0; 0]%N).
(** crypto_header.rs:102-109 *)
Inductive MicState := Mic_NotPresent | Mic_Short | Mic_Long.
(** crypto_header.rs:112-118 *)
Definition mic_length (m : MicState) : nat :=
  match m with Mic_NotPresent => 0 | Mic_Short => 8 | Mic_Long => 16 end.
(** crypto_header.rs:126-133 *)
Record CryptoWrapper (P : Type) := mkCW { cw_header : CryptoHeader; cw_payload : P; cw_mic : MicState }.
Arguments mkCW {P}. Arguments cw_header {P}. Arguments cw_payload {P}. Arguments cw_mic {P}.

Section CryptoHeader.
Context {cfg : Cfg}.
(** [u8] left shift by six *)
Definition shl6_u8 (x : N) : N := N.land (N.shiftl x 6) 255.
(** crypto_header.rs:53-80 *)
Definition rd_crypto_header : reader CryptoHeader := fun from =>
  '(header, off) <- gread (rd_bytes 8) from 0 ;;
  let packet_number := firstn 2 header ++ skipn 4 header in
  let flags := nth 3 header 0%N in
  if negb (N.testbit flags 5) then Err BadInput
  else Ok (mkCH packet_number (shl6_u8 flags), off).
(** crypto_header.rs:81-93 *)
Definition wr_crypto_header (h : CryptoHeader) : writer :=
  wseq [wr_bytes (firstn 2 (ch_pn h)); wr_u8 0; wr_u8 (N.lor 32 (shl6_u8 (ch_key_id h))); wr_bytes (skipn 2 (ch_pn h))].
(** crypto_header.rs:134-158; [r] is the reader of the payload *)
Definition rd_wrapped {A} (mic : MicState) (r : reader A) : reader (CryptoWrapper A) := fun from =>
  '(header, off) <- gread rd_crypto_header from 0 ;;
  rest <- slice_from from off ;;
  n <- usub (length from) off ;;
  n <- usub n (mic_length mic) ;;
  inner <- slice_to rest n ;;
  payload <- pread r inner 0 ;;
  Ok (mkCW header payload mic, length from).
(** crypto_header.rs:159-173 *)
Definition wr_crypto_wrapped (w : CryptoWrapper Container) : writer := fun buf =>
  let mic := mic_length (cw_mic w) in
  '(buf, off) <- gwrite (wr_crypto_header (cw_header w)) buf 0 ;;
  '(buf, off) <- gwrite (c_write (cw_payload w)) buf off ;;
  rest <- slice_from buf off ;;
  _ <- slice_to rest mic ;;
  Ok (firstn off buf ++ repeat 0%N mic ++ skipn mic rest, off + mic).
(** crypto_header.rs:174-180 *)
Definition c_crypto (w : CryptoWrapper Container) : Container :=
  mkC (8 + c_measure (cw_payload w) + mic_length (cw_mic w)) (wr_crypto_wrapped w).
End CryptoHeader.
