(** The rest of /repo/src/crypto/key_mgmt.rs: passphrases and the stand-alone key wrap.

    PBKDF2 and AES key wrap with padding (crates pbkdf2 and aes-kw; not in /repo) are arguments. *)
From Verif Require Import Base.

(** key_mgmt.rs:53-55; [pbkdf2 password salt iterations length] is PBKDF2 with HMAC-SHA-1; the contents of [output]
    afterwards. A [&str] is its bytes. *)
Definition map_passphrase_to_psk (pbkdf2 : bytes -> bytes -> nat -> nat -> bytes) (passphrase ssid : bytes) (output : nat) : bytes :=
  pbkdf2 passphrase ssid (N.to_nat 4096) output.

(** key_mgmt.rs:157-164 *)
Inductive KeyManagementError := InvalidKeyLength | InvalidOutputLength | ScratchBufferTooShort.
(** key_mgmt.rs:169-179; the contents of [output], of the given length, afterwards. [wrap_pad kek data] is
    [KekAes128::new(kek).wrap_with_padding(data, output)], which fails if the output has not eight bytes more than the
    data padded to a multiple of eight, or if the data has 2^32 bytes or more. *)
Definition wrap_eapol_key_data (wrap_pad : bytes -> bytes -> bytes) (kek key_data : bytes) (output : nat)
  : Res KeyManagementError bytes :=
  if (output =? 8 * ((length key_data + 7) / 8) + 8) && (N.of_nat (length key_data) <? 2 ^ 32)%N
  then Ok (wrap_pad kek key_data) else Err InvalidOutputLength.
