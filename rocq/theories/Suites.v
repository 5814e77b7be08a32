(** Generated by tools/gen_suites.py from /repo/src/elements/rsn.rs. *)
From Verif Require Import Base.

(** rsn.rs:17-26: OUI and suite type as a little-endian [u32] *)
Definition merge_oui_and_suite_type (oui : bytes) (suite_type : N) : N := le_val (oui ++ [suite_type]).
(** rsn.rs:28-35 *)
Definition split_cipher_suite_selector (sel : N) : bytes * N :=
  (firstn 3 (le_bytes 4 sel), nth 3 (le_bytes 4 sel) 0%N).
(** common/mod.rs:32 *)
Definition IEEE_OUI : bytes := [0x00; 0x0f; 0xac]%N.
(** rsn.rs:37-43 *)
Definition get_suite_type_if_oui_is_ieee (sel : N) : option N :=
  if (N.land sel 0xffffff =? 0xac0f00)%N then Some (N.shiftr sel 24 mod 256)%N else None.

(** rsn.rs:134-150, macro rsn.rs:45-124 *)
Inductive CipherSuite :=
| Cs_Unknown (sel : N)
| Cs_UseGroupCipherSuite
| Cs_Wep40
| Cs_Tkip
| Cs_Ccmp128
| Cs_Wep104
| Cs_BipCmac128
| Cs_GroupAddessedTrafficNotAllowed
| Cs_Gcmp128
| Cs_Gcmp256
| Cs_Ccmp256
| Cs_BIPGcmp128
| Cs_BIPGcmp256
| Cs_BIPCcmp256.
Definition cipher_from_selector (sel : N) : CipherSuite :=
  let '(oui, t) := split_cipher_suite_selector sel in
  if list_eq_dec N.eq_dec oui IEEE_OUI then
    match t with
    | 0 => Cs_UseGroupCipherSuite
    | 1 => Cs_Wep40
    | 2 => Cs_Tkip
    | 4 => Cs_Ccmp128
    | 5 => Cs_Wep104
    | 6 => Cs_BipCmac128
    | 7 => Cs_GroupAddessedTrafficNotAllowed
    | 8 => Cs_Gcmp128
    | 9 => Cs_Gcmp256
    | 10 => Cs_Ccmp256
    | 11 => Cs_BIPGcmp128
    | 12 => Cs_BIPGcmp256
    | 13 => Cs_BIPCcmp256
    | _ => Cs_Unknown (merge_oui_and_suite_type oui t)
    end%N
  else Cs_Unknown (merge_oui_and_suite_type oui t).
Definition cipher_selector (x : CipherSuite) : N :=
  match x with
  | Cs_Unknown sel => sel
  | Cs_UseGroupCipherSuite => merge_oui_and_suite_type IEEE_OUI 0
  | Cs_Wep40 => merge_oui_and_suite_type IEEE_OUI 1
  | Cs_Tkip => merge_oui_and_suite_type IEEE_OUI 2
  | Cs_Ccmp128 => merge_oui_and_suite_type IEEE_OUI 4
  | Cs_Wep104 => merge_oui_and_suite_type IEEE_OUI 5
  | Cs_BipCmac128 => merge_oui_and_suite_type IEEE_OUI 6
  | Cs_GroupAddessedTrafficNotAllowed => merge_oui_and_suite_type IEEE_OUI 7
  | Cs_Gcmp128 => merge_oui_and_suite_type IEEE_OUI 8
  | Cs_Gcmp256 => merge_oui_and_suite_type IEEE_OUI 9
  | Cs_Ccmp256 => merge_oui_and_suite_type IEEE_OUI 10
  | Cs_BIPGcmp128 => merge_oui_and_suite_type IEEE_OUI 11
  | Cs_BIPGcmp256 => merge_oui_and_suite_type IEEE_OUI 12
  | Cs_BIPCcmp256 => merge_oui_and_suite_type IEEE_OUI 13
  end.
Definition cipher_eq_dec (x y : CipherSuite) : {x = y} + {x <> y}.
Proof. decide equality. apply N.eq_dec. Defined.

(** rsn.rs:187-215, macro rsn.rs:45-124 *)
Inductive AkmType :=
| Ak_Unknown (sel : N)
| Ak_None
| Ak_Wpa
| Ak_Psk
| Ak_FTOverIEEE8021X
| Ak_FTUsingPsk
| Ak_WpaSha256
| Ak_PskSha256
| Ak_Tdls
| Ak_Sae
| Ak_FTUsingSae
| Ak_APPeerKey
| Ak_WpaSha256SuiteB
| Ak_WpaSha384SuiteB
| Ak_FTOverIEEE8021XSha384
| Ak_FilsSha256Aes256
| Ak_FilsSha384Aes512
| Ak_FTOverFilsSha256Aes256
| Ak_FTOverFilsSha384Aes512
| Ak_OpportunisticWirelessEncryption
| Ak_FTUsingPskSha384
| Ak_PskSha384
| Ak_Pasn
| Ak_SaeGroupDefend
| Ak_FTUsingSaeGroupDefend.
Definition akm_from_selector (sel : N) : AkmType :=
  let '(oui, t) := split_cipher_suite_selector sel in
  if list_eq_dec N.eq_dec oui IEEE_OUI then
    match t with
    | 0 => Ak_None
    | 1 => Ak_Wpa
    | 2 => Ak_Psk
    | 3 => Ak_FTOverIEEE8021X
    | 4 => Ak_FTUsingPsk
    | 5 => Ak_WpaSha256
    | 6 => Ak_PskSha256
    | 7 => Ak_Tdls
    | 8 => Ak_Sae
    | 9 => Ak_FTUsingSae
    | 10 => Ak_APPeerKey
    | 11 => Ak_WpaSha256SuiteB
    | 12 => Ak_WpaSha384SuiteB
    | 13 => Ak_FTOverIEEE8021XSha384
    | 14 => Ak_FilsSha256Aes256
    | 15 => Ak_FilsSha384Aes512
    | 16 => Ak_FTOverFilsSha256Aes256
    | 17 => Ak_FTOverFilsSha384Aes512
    | 18 => Ak_OpportunisticWirelessEncryption
    | 19 => Ak_FTUsingPskSha384
    | 20 => Ak_PskSha384
    | 21 => Ak_Pasn
    | 22 => Ak_SaeGroupDefend
    | 23 => Ak_FTUsingSaeGroupDefend
    | _ => Ak_Unknown (merge_oui_and_suite_type oui t)
    end%N
  else Ak_Unknown (merge_oui_and_suite_type oui t).
Definition akm_selector (x : AkmType) : N :=
  match x with
  | Ak_Unknown sel => sel
  | Ak_None => merge_oui_and_suite_type IEEE_OUI 0
  | Ak_Wpa => merge_oui_and_suite_type IEEE_OUI 1
  | Ak_Psk => merge_oui_and_suite_type IEEE_OUI 2
  | Ak_FTOverIEEE8021X => merge_oui_and_suite_type IEEE_OUI 3
  | Ak_FTUsingPsk => merge_oui_and_suite_type IEEE_OUI 4
  | Ak_WpaSha256 => merge_oui_and_suite_type IEEE_OUI 5
  | Ak_PskSha256 => merge_oui_and_suite_type IEEE_OUI 6
  | Ak_Tdls => merge_oui_and_suite_type IEEE_OUI 7
  | Ak_Sae => merge_oui_and_suite_type IEEE_OUI 8
  | Ak_FTUsingSae => merge_oui_and_suite_type IEEE_OUI 9
  | Ak_APPeerKey => merge_oui_and_suite_type IEEE_OUI 10
  | Ak_WpaSha256SuiteB => merge_oui_and_suite_type IEEE_OUI 11
  | Ak_WpaSha384SuiteB => merge_oui_and_suite_type IEEE_OUI 12
  | Ak_FTOverIEEE8021XSha384 => merge_oui_and_suite_type IEEE_OUI 13
  | Ak_FilsSha256Aes256 => merge_oui_and_suite_type IEEE_OUI 14
  | Ak_FilsSha384Aes512 => merge_oui_and_suite_type IEEE_OUI 15
  | Ak_FTOverFilsSha256Aes256 => merge_oui_and_suite_type IEEE_OUI 16
  | Ak_FTOverFilsSha384Aes512 => merge_oui_and_suite_type IEEE_OUI 17
  | Ak_OpportunisticWirelessEncryption => merge_oui_and_suite_type IEEE_OUI 18
  | Ak_FTUsingPskSha384 => merge_oui_and_suite_type IEEE_OUI 19
  | Ak_PskSha384 => merge_oui_and_suite_type IEEE_OUI 20
  | Ak_Pasn => merge_oui_and_suite_type IEEE_OUI 21
  | Ak_SaeGroupDefend => merge_oui_and_suite_type IEEE_OUI 22
  | Ak_FTUsingSaeGroupDefend => merge_oui_and_suite_type IEEE_OUI 23
  end.
Definition akm_eq_dec (x y : AkmType) : {x = y} + {x <> y}.
Proof. decide equality. apply N.eq_dec. Defined.
