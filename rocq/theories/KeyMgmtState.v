(** What [deserialize_eapol_data_frame] and [serialize_eapol_data_frame] leave in the caller's buffer:
    /repo/src/crypto/key_mgmt.rs:205-405.

    The functions work in place. Here the result is paired with the contents of the whole buffer afterwards; after a
    panic they are those at the time of the panic. *)
From Verif Require Import Base Bits Layouts Enums Common Mgmt Rsn Data Eapol KeyMgmt.

Section KeyMgmtState.
Context {cfg : Cfg}.
Variable hmac : bytes -> bytes -> bytes.
Variable kw_wrap : bytes -> bytes -> bytes.
Variable kw_unwrap : bytes -> bytes -> option bytes.

(** key_mgmt.rs:368-401; the result is the shortened buffer *)
Definition decrypt_in_place (kek : option bytes) (buffer : bytes) (eapol mic_length : nat) (info : N) (temp : nat)
  : Res EapolSerdeError bytes * bytes :=
  if ki_encrypted_key_data info then
    let data_length_offset := eapol + 81 + mic_length in
    let unwrapped :=
      data_length <- map_err BufferTooShort (pread (rd_be 2) buffer data_length_offset) ;;
      let data_length := N.to_nat data_length in
      rest <- slice_from buffer (data_length_offset + 2) ;;
      data <- match get_range rest 0 data_length with Some x => Ok x | None => Panic end ;;
      kek <- ok_or MissingKey kek ;;
      new_length <- usub data_length 8 ;;
      if temp <? new_length then Panic
      else plain <- ok_or TemporaryBufferToShort (kw_unwrap kek data) ;; Ok (new_length, plain) in
    match unwrapped with
    | Err e => (Err e, buffer)
    | Panic => (Panic, buffer)
    | Ok (new_length, plain) =>
      match pwrite (wr_be 2 (N.of_nat new_length)) buffer data_length_offset with
      | Ok (buffer, _) =>
        match pwrite (wr_bytes plain) buffer (data_length_offset + 2) with
        | Ok (buffer, _) =>
          let shortened :=
            new_buffer_length <- usub (length buffer) 8 ;;
            body_length <- usub new_buffer_length eapol ;;
            body_length <- usub body_length 4 ;;
            '(short, _) <- res_unwrap (pwrite (wr_be 2 (N.of_nat body_length mod 65536)) (firstn new_buffer_length buffer) (eapol + 2)) ;;
            Ok short in
          match shortened with
          | Ok short => (Ok short, short ++ skipn (length short) buffer)
          | Err e => (Err e, buffer)
          | Panic => (Panic, buffer)
          end
        | _ => (Panic, buffer)
        end
      | _ => (Panic, buffer)
      end
    end
  else (Ok buffer, buffer).

(** key_mgmt.rs:319-405, behind the removal of the FCS *)
Definition deserialize_plain_in_place (kck kek : option bytes) (buffer : bytes) (temp : nat) (akm : AkmType)
  : Res EapolSerdeError (KeyFrame bytes) * bytes :=
  let checked :=
    header <- map_err BufferTooShort (pread rd_data_header buffer 0) ;;
    let payload_offset := dh_length header in
    rest <- ok_or BufferTooShort (get_from buffer (payload_offset + 6)) ;;
    ether_type <- map_err BufferTooShort (pread (rd_be 2) rest 0) ;;
    if negb (ether_type =? 0x888e)%N then Err EtherTypeNotEapol
    else
      let eapol := payload_offset + 8 in
      rest <- slice_from buffer (eapol + 5) ;;
      info <- map_err BufferTooShort (pread (rd_be 2) rest 0) ;;
      mic_length <- ok_or UnknownAkmSuite (key_mic_len akm) ;;
      _ <- check_mic hmac kck buffer eapol mic_length info ;;
      Ok (eapol, mic_length, info) in
  match checked with
  | Err e => (Err e, buffer)
  | Panic => (Panic, buffer)
  | Ok (eapol, mic_length, info) =>
    let '(short, after) := decrypt_in_place kek buffer eapol mic_length info temp in
    (short <- short ;; map_err KeyFrameDeserializationFailure (pread (rd_key_frame akm) short eapol), after)
  end.
(** key_mgmt.rs:306-405; the last four bytes are left alone if there is an FCS *)
Definition deserialize_in_place (kck kek : option bytes) (buffer : bytes) (temp : nat) (akm : AkmType) (with_fcs : bool)
  : Res EapolSerdeError (KeyFrame bytes) * bytes :=
  if with_fcs then
    if length buffer <? 4 then (if overflow_checks then Panic else Err BufferTooShort, buffer)
    else let '(result, after) := deserialize_plain_in_place kck kek (firstn (length buffer - 4) buffer) temp akm in
         (result, after ++ skipn (length buffer - 4) buffer)
  else deserialize_plain_in_place kck kek buffer temp akm.

(** key_mgmt.rs:252-292: pad and wrap the key data, adjust the lengths; the result is the number of bytes written *)
Definition encrypt_in_place (kek : option bytes) (buffer : bytes) (written data_length_start data_start eapol_start mic_length data_length temp : nat)
  : Res EapolSerdeError nat * bytes :=
  let padded_length := padded_key_data_length data_length in
  match slice_from buffer data_start with
  | Ok rest =>
    match get_range rest 0 padded_length with
    | None => (Err BufferTooShort, buffer)
    | Some data =>
      let data := firstn data_length data ++ padding (padded_length - data_length) in
      let buffer := overwrite buffer data_start data in
      let wrapped_length := padded_length + 8 in
      match kek with
      | None => (Err MissingKey, buffer)
      | Some kek =>
        if temp <? wrapped_length then (Panic, buffer)
        else
          match slice_from buffer data_start with
          | Ok rest =>
            match get_range rest 0 wrapped_length with
            | None => (Err BufferTooShort, buffer)
            | Some _ =>
              let buffer := overwrite buffer data_start (kw_wrap kek data) in
              let buffer := match pwrite (wr_be 2 (N.of_nat wrapped_length mod 65536)) buffer data_length_start with
                            | Ok (buffer', _) => buffer' | _ => buffer end in
              let buffer := match pwrite (wr_be 2 (N.of_nat (77 + mic_length + 2 + wrapped_length) mod 65536)) buffer (eapol_start + 2) with
                            | Ok (buffer', _) => buffer' | _ => buffer end in
              (Ok (written + (wrapped_length - data_length)), buffer)
            end
          | Err e => (Err e, buffer)
          | Panic => (Panic, buffer)
          end
      end
    end
  | Err e => (Err e, buffer)
  | Panic => (Panic, buffer)
  end.
(** key_mgmt.rs:293-300 *)
Definition sign_in_place (kck : option bytes) (buffer : bytes) (written eapol_start mic_start mic_end : nat) : Res EapolSerdeError nat * bytes :=
  match kck with
  | None => (Err MissingKey, buffer)
  | Some kck =>
    match slice buffer eapol_start written with
    | Ok message =>
      match slice buffer mic_start mic_end with
      | Ok _ =>
        if mic_end - mic_start =? 16 then (Ok written, overwrite buffer mic_start (firstn 16 (hmac kck message)))
        else (Panic, buffer)
      | Err e => (Err e, buffer)
      | Panic => (Panic, buffer)
      end
    | Err e => (Err e, buffer)
    | Panic => (Panic, buffer)
    end
  end.
(** key_mgmt.rs:205-302. [torn] is what the first write leaves in the buffer if it fails; see Stores.v. *)
Definition serialize_in_place (kck kek : option bytes) (d : EapolDataFrame) (buffer : bytes) (temp : nat) (torn : bytes)
  : Res EapolSerdeError nat * bytes :=
  if temp <? 24 then (Err TemporaryBufferToShort, buffer)
  else
    match eapol_mic_range d, snd d, eapol_key_data_length_range d, eapol_key_data_range d with
    | Some (mic_start, mic_end), Some s, Some (data_length_start, data_length_end), Some data_start =>
      let mic_length := length (key_mic (snap_payload s)) in
      let info := key_information (snap_payload s) in
      let eapol_start := dh_length (fst d) + 8 in
      match pwrite (wr_data (eapol_data d) false) buffer 0 with
      | Ok (buffer, written) =>
        match (field <- slice buffer data_length_start data_length_end ;; res_unwrap (pread (rd_be 2) field 0)) with
        | Ok data_length =>
          let data_length := N.to_nat data_length in
          let '(result, buffer) :=
            if negb (data_length =? 0) && ki_encrypted_key_data info
            then encrypt_in_place kek buffer written data_length_start data_start eapol_start mic_length data_length temp
            else (Ok written, buffer) in
          match result with
          | Ok written => if ki_key_mic info then sign_in_place kck buffer written eapol_start mic_start mic_end else (Ok written, buffer)
          | Err e => (Err e, buffer)
          | Panic => (Panic, buffer)
          end
        | Err e => (Err e, buffer)
        | Panic => (Panic, buffer)
        end
      | Err _ => (Err BufferTooShort, torn)
      | Panic => (Panic, torn)
      end
    | _, _, _, _ => (Err NoPayload, buffer)
    end.
End KeyMgmtState.
