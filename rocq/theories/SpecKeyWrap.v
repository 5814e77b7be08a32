(** Specification of the mapping of passphrases (IEEE 802.11-2020, J.4.1; PBKDF2, RFC 8018, 5.2). *)
From Verif Require Import Base SpecBase Aes.

(** U_1 = HMAC(password, salt || i), U_(j+1) = HMAC(password, U_j) *)
Definition u_value (hmac : bytes -> bytes -> bytes) (password salt : bytes) (i j : nat) : bytes :=
  Nat.iter j (hmac password) (hmac password (salt ++ be_bytes 4 (N.of_nat (S i)))).
(** the sum of [n] of them *)
Fixpoint xor_sum (l : list bytes) : bytes :=
  match l with [] => [] | [u] => u | u :: l' => xor_bytes u (xor_sum l') end.
Definition t_value hmac password salt (n i : nat) : bytes := xor_sum (map (u_value hmac password salt i) (seq 0 n)).
(** PSK = PBKDF2(passphrase, ssid, 4096, length): the front of T_1 || T_2 || ... *)
Definition psk_stream hmac passphrase ssid (blocks : nat) : bytes :=
  concat (map (t_value hmac passphrase ssid (N.to_nat 4096)) (seq 0 blocks)).
