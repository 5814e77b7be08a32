(** Key management: /repo/src/crypto/key_mgmt.rs.

    HMAC and AES key wrap (crates hmac, sha1, aes-kw; not in /repo) are arguments:
    [hmac key message], [kw_wrap kek data] and [kw_unwrap kek data]. *)
From Verif Require Import Base Bits Layouts Enums Common Mgmt Rsn Data Eapol.

(** key_mgmt.rs:32-47, for any HMAC; [[..16]] panics if its output is shorter.
    [copy_from_slice] always has 16 bytes on both sides. *)
Definition label_bytes (s : String.string) : bytes := map Ascii.N_of_ascii (String.list_ascii_of_string s).
Definition generate_pmkid {E} (hmac : bytes -> bytes -> bytes) (key aa spa : bytes) : Res E bytes :=
  slice_to (hmac key (label_bytes "PMK Name" ++ aa ++ spa)) 16.

(** [chunks_mut(n)]: the lengths of the chunks of a slice of length [len]; [fuel] >= number of chunks *)
Fixpoint chunk_lengths (fuel n len : nat) : list nat :=
  match fuel with
  | O => []
  | S fuel' => if len =? 0 then [] else if len <=? n then [len] else n :: chunk_lengths fuel' n (len - n)
  end.
(** key_mgmt.rs:62-93; the contents of the output afterwards. [i as u8] drops the higher bits. HMAC-SHA-1 has
    20 bytes of output; the two branches for full and partial chunks both copy the front of it. *)
Fixpoint prf_chunks (hmac : bytes -> bytes -> bytes) (key prefix : bytes) (i : nat) (chunks : list nat) : bytes :=
  match chunks with
  | [] => []
  | len :: chunks' =>
    let block := hmac key (prefix ++ [N.of_nat i mod 256]%N) in
    (if len =? 20 then block else firstn len block) ++ prf_chunks hmac key prefix (S i) chunks'
  end.
Definition prf_iter (hmac : bytes -> bytes -> bytes) (key : bytes) (label : String.string) (data : list bytes) (output_length : nat) : bytes :=
  prf_chunks hmac key (label_bytes label ++ [0]%N ++ concat data) 0 (chunk_lengths output_length 20 output_length).
(** key_mgmt.rs:98-100 *)
Definition prf hmac key label (data : bytes) output_length : bytes := prf_iter hmac key label [data] output_length.

(** [Iterator::partial_cmp] on bytes *)
Fixpoint iter_cmp (a b : bytes) : comparison :=
  match a, b with
  | [], [] => Eq
  | [], _ => Lt
  | _, [] => Gt
  | x :: a', y :: b' => match (x ?= y)%N with Eq => iter_cmp a' b' | c => c end
  end.
(** key_mgmt.rs:106-112 *)
Definition sort_lexicographically (a b : bytes) : bytes * bytes :=
  match iter_cmp a b with Lt => (a, b) | _ => (b, a) end.
(** key_mgmt.rs:116-135 *)
Definition derive_ptk hmac (pmk aa spa anonce snonce : bytes) (ptk_length : nat) : bytes :=
  let '(min_address, max_address) := sort_lexicographically aa spa in
  let '(min_nonce, max_nonce) := sort_lexicographically anonce snonce in
  prf_iter hmac pmk "Pairwise key expansion" [min_address; max_address; min_nonce; max_nonce] ptk_length.

Definition split_at_checked (bs : bytes) (n : nat) : option (bytes * bytes) :=
  if n <=? length bs then Some (firstn n bs, skipn n bs) else None.
(** key_mgmt.rs:141-153 *)
Definition partition_ptk (ptk : bytes) (akm : AkmType) (cipher : CipherSuite) : option (bytes * bytes * bytes) :=
  match kck_len akm, kek_len akm, tk_len cipher with
  | Some kck_len, Some kek_len, Some tk_len =>
    match split_at_checked ptk kck_len with
    | Some (kck, kek_and_tk) =>
      match split_at_checked kek_and_tk kek_len with
      | Some (kek, tk) => if tk_len <=? length tk then Some (kck, kek, firstn tk_len tk) else None
      | None => None
      end
    | None => None
    end
  | _, _, _ => None
  end.

(** key_mgmt.rs:180-200 *)
Inductive EapolSerdeError :=
| BufferTooShort | TemporaryBufferToShort | NoPayload | MissingKey | KeyFrameDeserializationFailure
| UnknownAkmSuite | InvalidMic | EtherTypeNotEapol.
Definition map_err {E F A} (e : F) (m : Res E A) : Res F A :=
  match m with Ok a => Ok a | Err _ => Err e | Panic => Panic end.
Definition ok_or {E A} (e : E) (o : option A) : Res E A := match o with Some a => Ok a | None => Err e end.
(** [get(a..b)], [get(a..)] *)
Definition get_range (bs : bytes) (a b : nat) : option bytes :=
  if (a <=? b) && (b <=? length bs) then Some (firstn (b - a) (skipn a bs)) else None.
Definition get_from (bs : bytes) (a : nat) : option bytes := if a <=? length bs then Some (skipn a bs) else None.
(** [buf[off..][..len]] overwritten with [bs] of that length *)
Definition overwrite (buf : bytes) (off : nat) (bs : bytes) : bytes :=
  firstn off buf ++ bs ++ skipn (off + length bs) buf.
(** 0xdd, then zeros *)
Definition padding (n : nat) : bytes := match n with O => [] | S m => 0xdd%N :: repeat 0%N m end.
(** key_mgmt.rs:253-259 *)
Definition padded_key_data_length (n : nat) : nat :=
  if n <? 16 then 16 else if negb (n mod 8 =? 0) then 8 * (n / 8) + 8 else n.

Section KeyMgmt.
Context {cfg : Cfg}.
Variable hmac : bytes -> bytes -> bytes.
(** [KekAes128::new(kek).wrap(data, out)] with an output slice of the right length; it fails if the length of
    the data is not a multiple of eight *)
Variable kw_wrap : bytes -> bytes -> bytes.
(** [KekAes128::new(kek).unwrap(data, out)] with an output slice of the right length; [None]: integrity
    check failed or length of the data not a multiple of eight *)
Variable kw_unwrap : bytes -> bytes -> option bytes.

(** key_mgmt.rs:205-302. The results are the buffer and the number of bytes written; the contents of the temporary
    buffer (only its length matters) and of the buffer after an error are not modelled.
    The frame is written without FCS ([bool::default()]). *)
Definition serialize_eapol (kck kek : option bytes) (d : EapolDataFrame) (buffer : bytes) (temp : nat)
  : Res EapolSerdeError (bytes * nat) :=
  if temp <? 24 then Err TemporaryBufferToShort
  else
    '(mic_start, mic_end) <- ok_or NoPayload (eapol_mic_range d) ;;
    s <- ok_or NoPayload (snd d) ;;
    let mic_length := length (key_mic (snap_payload s)) in
    '(data_length_start, data_length_end) <- ok_or NoPayload (eapol_key_data_length_range d) ;;
    data_start <- ok_or NoPayload (eapol_key_data_range d) ;;
    let info := key_information (snap_payload s) in
    let eapol_start := dh_length (fst d) + 8 in
    '(buffer, written) <- map_err BufferTooShort (pwrite (wr_data (eapol_data d) false) buffer 0) ;;
    field <- slice buffer data_length_start data_length_end ;;
    data_length <- res_unwrap (pread (rd_be 2) field 0) ;;
    let data_length := N.to_nat data_length in
    '(buffer, written) <-
      (if negb (data_length =? 0) && ki_encrypted_key_data info then
         let padded_length := padded_key_data_length data_length in
         rest <- slice_from buffer data_start ;;
         data <- ok_or BufferTooShort (get_range rest 0 padded_length) ;;
         let data := firstn data_length data ++ padding (padded_length - data_length) in
         let buffer := overwrite buffer data_start data in
         let wrapped_length := padded_length + 8 in
         kek <- ok_or MissingKey kek ;;
         if temp <? wrapped_length then Panic
         else
           let wrapped := kw_wrap kek data in
           rest <- slice_from buffer data_start ;;
           _ <- ok_or BufferTooShort (get_range rest 0 wrapped_length) ;;
           let buffer := overwrite buffer data_start wrapped in
           let written := written + (wrapped_length - data_length) in
           (* [let _ =]: errors are ignored *)
           let buffer := match pwrite (wr_be 2 (N.of_nat wrapped_length mod 65536)) buffer data_length_start with
                         | Ok (buffer', _) => buffer' | _ => buffer end in
           let buffer := match pwrite (wr_be 2 (N.of_nat (77 + mic_length + 2 + wrapped_length) mod 65536)) buffer (eapol_start + 2) with
                         | Ok (buffer', _) => buffer' | _ => buffer end in
           Ok (buffer, written)
       else Ok (buffer, written)) ;;
    if ki_key_mic info then
      kck <- ok_or MissingKey kck ;;
      message <- slice buffer eapol_start written ;;
      let mac := hmac kck message in
      _ <- slice buffer mic_start mic_end ;;
      (* copy_from_slice *)
      if mic_end - mic_start =? 16 then Ok (overwrite buffer mic_start (firstn 16 mac), written) else Panic
    else Ok (buffer, written).

(** key_mgmt.rs:344-367: the check of the MIC; [eapol] is [eapol_key_frame_offset] *)
Definition check_mic (kck : option bytes) (buffer : bytes) (eapol mic_length : nat) (info : N) : Res EapolSerdeError unit :=
  if ki_key_mic info then
    kck <- ok_or MissingKey kck ;;
    part1 <- ok_or BufferTooShort (get_range buffer eapol (eapol + 81)) ;;
    let zeros := concat (repeat (repeat 0%N 8) (mic_length / 8)) in
    part2 <- ok_or BufferTooShort (get_from buffer (eapol + 81 + mic_length)) ;;
    rest <- slice_from buffer (eapol + 81) ;;
    provided <- slice_to rest mic_length ;;
    calculated <- slice_to (hmac kck (part1 ++ zeros ++ part2)) mic_length ;;
    if list_eq_dec N.eq_dec calculated provided then Ok tt else Err InvalidMic
  else Ok tt.
(** key_mgmt.rs:368-401: decryption in place; the result is the shortened buffer *)
Definition decrypt_key_data (kek : option bytes) (buffer : bytes) (eapol mic_length : nat) (info : N) (temp : nat) : Res EapolSerdeError bytes :=
  if ki_encrypted_key_data info then
    let data_length_offset := eapol + 81 + mic_length in
    data_length <- map_err BufferTooShort (pread (rd_be 2) buffer data_length_offset) ;;
    let data_length := N.to_nat data_length in
    rest <- slice_from buffer (data_length_offset + 2) ;;
    (* [ok_or(..).unwrap()] *)
    data <- match get_range rest 0 data_length with Some x => Ok x | None => Panic end ;;
    kek <- ok_or MissingKey kek ;;
    new_length <- usub data_length 8 ;;
    if temp <? new_length then Panic
    else
      plain <- ok_or TemporaryBufferToShort (kw_unwrap kek data) ;;
      '(buffer, _) <- res_unwrap (pwrite (wr_be 2 (N.of_nat new_length)) buffer data_length_offset) ;;
      '(buffer, _) <- res_unwrap (pwrite (wr_bytes plain) buffer (data_length_offset + 2)) ;;
      new_buffer_length <- usub (length buffer) 8 ;;
      let buffer := firstn new_buffer_length buffer in
      body_length <- usub new_buffer_length eapol ;;
      body_length <- usub body_length 4 ;;
      '(buffer, _) <- res_unwrap (pwrite (wr_be 2 (N.of_nat body_length mod 65536)) buffer (eapol + 2)) ;;
      Ok buffer
  else Ok buffer.
(** key_mgmt.rs:306-405 *)
Definition deserialize_eapol (kck kek : option bytes) (buffer : bytes) (temp : nat) (akm : AkmType) (with_fcs : bool)
  : Res EapolSerdeError (KeyFrame bytes) :=
  buffer <- (if with_fcs then
               (* [buffer.len() - 4] panics or wraps around *)
               if length buffer <? 4 then if overflow_checks then Panic else Err BufferTooShort
               else Ok (firstn (length buffer - 4) buffer)
             else Ok buffer) ;;
  header <- map_err BufferTooShort (pread rd_data_header buffer 0) ;;
  let payload_offset := dh_length header in
  rest <- ok_or BufferTooShort (get_from buffer (payload_offset + 6)) ;;
  ether_type <- map_err BufferTooShort (pread (rd_be 2) rest 0) ;;
  if negb (ether_type =? 0x888e)%N then Err EtherTypeNotEapol
  else
    let eapol := payload_offset + 8 in
    rest <- slice_from buffer (eapol + 5) ;;
    info <- map_err BufferTooShort (pread (rd_be 2) rest 0) ;;
    mic_length <- ok_or UnknownAkmSuite (key_mic_len akm) ;;
    _ <- check_mic kck buffer eapol mic_length info ;;
    buffer <- decrypt_key_data kek buffer eapol mic_length info temp ;;
    map_err KeyFrameDeserializationFailure (pread (rd_key_frame akm) buffer eapol).
End KeyMgmt.
