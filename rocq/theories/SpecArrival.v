(** What becomes of a complete key frame at any receiver. *)
From Verif Require Import Base SpecBase Suites Eapol SpecEapol KeyMgmt SpecKeyMgmt.

(** The frame [k] as it is on the air, at a receiver with these keys and a temporary buffer of this size: first the MIC, of the frame
    with zeros in its place, then the key data. *)
Definition arrival (hmac : bytes -> bytes -> bytes) (unwrap : bytes -> bytes -> option bytes) (kck kek : option bytes) (temp : nat)
  (k : KeyFrame bytes) : Res EapolSerdeError (KeyFrame bytes) :=
  let m := length (key_mic k) in
  let decrypted :=
    if N.testbit (key_information k) 12 then
      match kek with
      | None => Err MissingKey
      | Some key =>
        if length (key_data k) <? 8 then Panic else if temp + 8 <? length (key_data k) then Panic
        else match unwrap key (key_data k) with None => Err TemporaryBufferToShort | Some plain => Ok (with_data k plain) end
      end
    else Ok k in
  if N.testbit (key_information k) 8 then
    match kck with
    | None => Err MissingKey
    | Some key =>
      if 20 <? m then Panic
      else if list_eq_dec N.eq_dec (key_mic k) (firstn m (hmac key (enc_key_frame (with_mic k (repeat 0%N m))))) then decrypted else Err InvalidMic
    end
  else decrypted.
