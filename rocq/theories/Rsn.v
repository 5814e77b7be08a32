(** The RSN element, /repo/src/elements/rsn.rs. *)
From Verif Require Import Base Bits Layouts Enums Utf8 Elements ElementTypes.
From Verif Require Export Suites.

(** rsn.rs:155-168 *)
Definition tk_len (x : CipherSuite) : option nat :=
  match get_suite_type_if_oui_is_ieee (cipher_selector x) with
  | Some 1%N => Some 5
  | Some 2%N | Some 9%N | Some 10%N | Some 12%N | Some 13%N => Some 32
  | Some 4%N | Some 6%N | Some 8%N | Some 11%N => Some 16
  | Some 5%N => Some 13
  | _ => None
  end.
(** rsn.rs:171-181 *)
Definition mic_len (x : CipherSuite) : option nat :=
  match get_suite_type_if_oui_is_ieee (cipher_selector x) with
  | Some 2%N | Some 4%N | Some 6%N => Some 8
  | Some 8%N | Some 9%N | Some 10%N | Some 11%N | Some 12%N | Some 13%N => Some 16
  | _ => None
  end.
Definition between (a b : N) (x : N) : bool := ((a <=? x) && (x <=? b))%N.
(** rsn.rs:220-230 *)
Definition kck_len (x : AkmType) : option nat :=
  match get_suite_type_if_oui_is_ieee (akm_selector x) with
  | Some t => if between 1 11 t then Some 16 else if between 12 13 t then Some 24 else None
  | None => None
  end.
(** rsn.rs:234-245 *)
Definition kek_len (x : AkmType) : option nat :=
  match get_suite_type_if_oui_is_ieee (akm_selector x) with
  | Some t => if between 1 11 t then Some 16 else if between 12 14 t || (t =? 16)%N then Some 32
              else if (t =? 15)%N || (t =? 17)%N then Some 64 else None
  | None => None
  end.
(** rsn.rs:250-260 *)
Definition kck2_len (x : AkmType) : option nat :=
  match get_suite_type_if_oui_is_ieee (akm_selector x) with
  | Some t => if (t =? 16)%N then Some 16 else if (t =? 17)%N then Some 24 else None
  | None => None
  end.
(** rsn.rs:265-275 *)
Definition kek2_len (x : AkmType) : option nat :=
  match get_suite_type_if_oui_is_ieee (akm_selector x) with
  | Some t => if (t =? 16)%N then Some 16 else if (t =? 17)%N then Some 32 else None
  | None => None
  end.
(** rsn.rs:279-290 *)
Definition key_mic_len (x : AkmType) : option nat :=
  match get_suite_type_if_oui_is_ieee (akm_selector x) with
  | Some t => if between 1 11 t || (t =? 16)%N then Some 16 else if between 12 13 t || (t =? 17)%N then Some 24
              else if between 14 15 t then Some 0 else None
  | None => None
  end.

(** rsn.rs:296-306 *)
Inductive OptionalFeatureConfig := Of_Disabled | Of_Capable | Of_Required | Of_Invalid.
(** rsn.rs:308-315 *)
Definition optional_feature_from_bits (bits : N) : OptionalFeatureConfig :=
  match N.land bits 3 with 0 => Of_Disabled | 1 => Of_Capable | 2 => Of_Required | _ => Of_Invalid end%N.
(** rsn.rs:316-323 *)
Definition optional_feature_into_bits (x : OptionalFeatureConfig) : N :=
  match x with Of_Disabled => 0 | Of_Capable => 1 | Of_Required => 3 | Of_Invalid => 2 end%N.
(** rsn.rs:325-327 *)
Definition of_is_capable (x : OptionalFeatureConfig) : bool :=
  match x with Of_Required | Of_Capable => true | _ => false end.
(** rsn.rs:329-331 *)
Definition of_is_required (x : OptionalFeatureConfig) : bool :=
  match x with Of_Required => true | _ => false end.
(** rsn.rs:333-335 *)
Definition of_is_compatible (x y : OptionalFeatureConfig) : bool :=
  Bool.eqb (of_is_required x) (of_is_capable y) && Bool.eqb (of_is_capable x) (of_is_required y).
(** accessors of the two fields of [RsnCapabilities] with that type, rsn.rs:338-365 *)
Definition mfp_config (caps : N) : OptionalFeatureConfig :=
  optional_feature_from_bits (lget RsnCapabilities_layout "mfp_config" caps).
Definition with_mfp_config (x : OptionalFeatureConfig) (caps : N) : N :=
  lset RsnCapabilities_layout "mfp_config" (optional_feature_into_bits x) caps.
Definition spp_ampdu_config (caps : N) : OptionalFeatureConfig :=
  optional_feature_from_bits (lget RsnCapabilities_layout "spp_ampdu_config" caps).
Definition with_spp_ampdu_config (x : OptionalFeatureConfig) (caps : N) : N :=
  lset RsnCapabilities_layout "spp_ampdu_config" (optional_feature_into_bits x) caps.

(** A list in an RSN element: an array of values, or the iterator over received bytes
    (common/read_iterator.rs). *)
Inductive RList (A : Type) := Arr (l : list A) | Iter (bs : bytes).
Global Arguments Arr {A}.
Global Arguments Iter {A}.
(** rsn.rs:416-435. The version is not part of the value. *)
Record Rsn := mkRsn {
  rsn_group : option CipherSuite;
  rsn_pairwise : option (RList CipherSuite);
  rsn_akm : option (RList AkmType);
  rsn_caps : option N;
  rsn_pmkids : option (RList bytes);
  rsn_group_mgmt : option CipherSuite }.

(** ** Constants and builder *)
(** rsn.rs:438-453, also [Default], 703-717 *)
Definition rsn_new : Rsn := mkRsn None None None None None None.
(** rsn.rs:455-468 *)
Definition WPA_PERSONAL : Rsn :=
  mkRsn (Some Cs_Tkip) (Some (Arr [Cs_Tkip])) (Some (Arr [Ak_Psk])) (Some 0%N) None None.
(** rsn.rs:470-486 *)
Definition WPA_WPA2_PERSONAL : Rsn :=
  mkRsn (Some Cs_Tkip) (Some (Arr [Cs_Tkip; Cs_Ccmp128])) (Some (Arr [Ak_Psk])) (Some 0%N) None None.
(** rsn.rs:488-501 *)
Definition WPA2_PERSONAL : Rsn :=
  mkRsn (Some Cs_Ccmp128) (Some (Arr [Cs_Ccmp128])) (Some (Arr [Ak_Psk])) (Some 0%N) None None.
(** rsn.rs:503-516 *)
Definition WPA2_WPA3_PERSONAL : Rsn :=
  mkRsn (Some Cs_Ccmp128) (Some (Arr [Cs_Ccmp128])) (Some (Arr [Ak_Psk; Ak_Sae]))
    (Some (with_mfp_config Of_Required 0)) None None.
(** rsn.rs:518-533 *)
Definition WPA3_PERSONAL : Rsn :=
  mkRsn (Some Cs_Ccmp128) (Some (Arr [Cs_Ccmp128])) (Some (Arr [Ak_Sae]))
    (Some (with_mfp_config Of_Required 0)) (Some (Arr [])) (Some Cs_BipCmac128).
(** rsn.rs:535-550 *)
Definition RSN_OWE : Rsn :=
  mkRsn (Some Cs_Ccmp128) (Some (Arr [Cs_Ccmp128])) (Some (Arr [Ak_OpportunisticWirelessEncryption]))
    (Some (with_mfp_config Of_Required 0)) None (Some Cs_Ccmp128).
(** [Option::or] *)
Definition opt_or {A} (o : option A) (d : A) : option A := Some (match o with Some a => a | None => d end).
(** rsn.rs:555-557: the defaults; the default of the list types is the empty array *)
Definition DEFAULT_CIPHER_SUITE : CipherSuite := Cs_Ccmp128.
Definition DEFAULT_RSN_CAPABILITIES : N := 0.
(** rsn.rs:559-565 *)
Definition with_group_data_cipher_suite (x : Rsn) (g : CipherSuite) : Rsn :=
  mkRsn (Some g) (rsn_pairwise x) (rsn_akm x) (rsn_caps x) (rsn_pmkids x) (rsn_group_mgmt x).
(** rsn.rs:569-584 *)
Definition with_pairwise_cipher_suite_list (x : Rsn) (l : list CipherSuite) : Rsn :=
  mkRsn (opt_or (rsn_group x) DEFAULT_CIPHER_SUITE) (Some (Arr l)) (rsn_akm x) (rsn_caps x) (rsn_pmkids x) (rsn_group_mgmt x).
(** rsn.rs:588-605 *)
Definition with_akm_list (x : Rsn) (l : list AkmType) : Rsn :=
  mkRsn (opt_or (rsn_group x) DEFAULT_CIPHER_SUITE) (opt_or (rsn_pairwise x) (Arr [])) (Some (Arr l))
    (rsn_caps x) (rsn_pmkids x) (rsn_group_mgmt x).
(** rsn.rs:609-626 *)
Definition with_rsn_capabilities (x : Rsn) (c : N) : Rsn :=
  mkRsn (opt_or (rsn_group x) DEFAULT_CIPHER_SUITE) (opt_or (rsn_pairwise x) (Arr [])) (opt_or (rsn_akm x) (Arr []))
    (Some c) (rsn_pmkids x) (rsn_group_mgmt x).
(** rsn.rs:630-649 *)
Definition with_pmkid_list (x : Rsn) (l : list bytes) : Rsn :=
  mkRsn (opt_or (rsn_group x) DEFAULT_CIPHER_SUITE) (opt_or (rsn_pairwise x) (Arr [])) (opt_or (rsn_akm x) (Arr []))
    (opt_or (rsn_caps x) DEFAULT_RSN_CAPABILITIES) (Some (Arr l)) (rsn_group_mgmt x).
(** rsn.rs:653-672 *)
Definition with_group_management_cipher_suite (x : Rsn) (g : CipherSuite) : Rsn :=
  mkRsn (opt_or (rsn_group x) DEFAULT_CIPHER_SUITE) (opt_or (rsn_pairwise x) (Arr [])) (opt_or (rsn_akm x) (Arr []))
    (opt_or (rsn_caps x) DEFAULT_RSN_CAPABILITIES) (opt_or (rsn_pmkids x) (Arr [])) (Some g).

Section Rsn.
Context {cfg : Cfg}.
(** rsn.rs:97-110 *)
Definition rd_cipher : reader CipherSuite := fun from =>
  '(sel, off) <- gread (rd_le 4) from 0 ;; Ok (cipher_from_selector sel, off).
Definition rd_akm : reader AkmType := fun from =>
  '(sel, off) <- gread (rd_le 4) from 0 ;; Ok (akm_from_selector sel, off).
(** rsn.rs:117-127 *)
Definition wr_cipher (x : CipherSuite) : writer := wseq [wr_le 4 (cipher_selector x)].
Definition wr_akm (x : AkmType) : writer := wseq [wr_le 4 (akm_selector x)].
(** rsn.rs:381-395 *)
Definition rd_pmkid : reader bytes := rd_bytes 16.
Definition wr_pmkid (x : bytes) : writer := fun buf => pwrite (wr_bytes x) buf 0.

(** [IntoIterator] of the two forms *)
Definition rl_items {A} (r : reader A) (l : RList A) : Res serr (list A) :=
  match l with Arr l => Ok l | Iter bs => iter_all r bs end.
(** [.into_iter().count()]; the iteration does not panic (RsnFacts) *)
Definition rl_count {A} (r : reader A) (l : RList A) : nat :=
  match rl_items r l with Ok l => length l | _ => 0 end.
(** [TryIntoCtx] of the two forms: scroll writes the items of an array one after the other,
    read_iterator.rs:22-27 the bytes *)
Definition wr_rlist {A} (w : A -> writer) (l : RList A) : writer :=
  match l with Arr l => wseq (map w l) | Iter bs => fun buf => pwrite (wr_bytes bs) buf 0 end.

(** [read_list!], rsn.rs:718-729: the bytes of the list, and the new offset *)
Definition rd_list (from : bytes) (off : nat) : Res serr (option bytes * nat) :=
  '(n, off) <- gread_ok (rd_le 2) from off ;;
  match n with
  | None => Ok (None, off)
  | Some n => gread_ok (rd_bytes (N.to_nat (n * 4))) from off
  end.
(** rsn.rs:730-763; the capabilities are read in native byte order *)
Definition rd_rsn : reader Rsn := fun from =>
  '(version, off) <- gread (rd_le 2) from 0 ;;
  if negb (version =? 1)%N then Err BadInput else
  '(group, off) <- gread_ok rd_cipher from off ;;
  match group with None => Ok (rsn_new, off) | Some group =>
  '(pairwise, off) <- rd_list from off ;;
  match pairwise with None => Ok (mkRsn (Some group) None None None None None, off) | Some pairwise =>
  '(akm, off) <- rd_list from off ;;
  match akm with None => Ok (mkRsn (Some group) (Some (Iter pairwise)) None None None None, off) | Some akm =>
  '(caps, off) <- gread_ok (rd_ne 2) from off ;;
  match caps with None => Ok (mkRsn (Some group) (Some (Iter pairwise)) (Some (Iter akm)) None None None, off) | Some caps =>
  '(pmkids, off) <- rd_list from off ;;
  match pmkids with None => Ok (mkRsn (Some group) (Some (Iter pairwise)) (Some (Iter akm)) (Some caps) None None, off) | Some pmkids =>
  '(gm, off) <- gread_ok rd_cipher from off ;;
  Ok (mkRsn (Some group) (Some (Iter pairwise)) (Some (Iter akm)) (Some caps) (Some (Iter pmkids)) gm, off)
  end end end end end.
(** rsn.rs:764-795; four bytes per PMKID *)
Definition rsn_measure (x : Rsn) : nat :=
  2 + (match rsn_group x with Some _ => 4 | None => 0 end)
    + (match rsn_pairwise x with Some l => 2 + rl_count rd_cipher l * 4 | None => 0 end)
    + (match rsn_akm x with Some l => 2 + rl_count rd_akm l * 4 | None => 0 end)
    + (match rsn_caps x with Some _ => 2 | None => 0 end)
    + (match rsn_pmkids x with Some l => 2 + rl_count rd_pmkid l * 4 | None => 0 end)
    + (match rsn_group_mgmt x with Some _ => 4 | None => 0 end).
(** [write_list!], rsn.rs:796-806 *)
Definition wr_list {A} (w : A -> writer) (l : RList A) (buf : bytes) (off : nat) : Res serr (bytes * nat) :=
  let off := off + 2 in
  '(buf, off') <- gwrite (wr_rlist w l) buf off ;;
  let list_length := off' - off in
  '(buf, _) <- pwrite (wr_le 2 (N.of_nat list_length mod 65536 / 4)) buf (off' - list_length - 2) ;;
  Ok (buf, off').
(** rsn.rs:808-854 *)
Definition wr_rsn (x : Rsn) : writer := fun buf =>
  '(buf, off) <- gwrite (wr_le 2 1) buf 0 ;;
  match rsn_group x with None => Ok (buf, off) | Some group =>
  '(buf, off) <- gwrite (wr_cipher group) buf off ;;
  match rsn_pairwise x with None => Ok (buf, off) | Some l =>
  '(buf, off) <- wr_list wr_cipher l buf off ;;
  match rsn_akm x with None => Ok (buf, off) | Some l =>
  '(buf, off) <- wr_list wr_akm l buf off ;;
  match rsn_caps x with None => Ok (buf, off) | Some caps =>
  '(buf, off) <- gwrite (wr_le 2 caps) buf off ;;
  match rsn_pmkids x with None => Ok (buf, off) | Some l =>
  '(buf, off) <- wr_list wr_pmkid l buf off ;;
  match rsn_group_mgmt x with None => Ok (buf, off) | Some gm =>
  gwrite (wr_cipher gm) buf off
  end end end end end end.
(** rsn.rs:855-862 *)
Definition RsnElement : ElementType Rsn Rsn := mkET (Id 0x30) rsn_measure wr_rsn rd_rsn.

(** [PartialEq], rsn.rs:674-702; options and lists of values with decidable equality *)
Definition opt_eqb {A} (eqb : A -> A -> bool) (a b : option A) : bool :=
  match a, b with Some a, Some b => eqb a b | None, None => true | _, _ => false end.
Definition rl_eqb {A} (r : reader A) (dec : forall x y : A, {x = y} + {x <> y}) (a b : RList A) : bool :=
  match rl_items r a, rl_items r b with
  | Ok a, Ok b => if list_eq_dec dec a b then true else false
  | _, _ => false
  end.
Definition rsn_eqb (x y : Rsn) : bool :=
  opt_eqb (fun a b => if cipher_eq_dec a b then true else false) (rsn_group x) (rsn_group y)
  && opt_eqb (rl_eqb rd_cipher cipher_eq_dec) (rsn_pairwise x) (rsn_pairwise y)
  && opt_eqb (rl_eqb rd_akm akm_eq_dec) (rsn_akm x) (rsn_akm y)
  && opt_eqb N.eqb (rsn_caps x) (rsn_caps y)
  && opt_eqb (rl_eqb rd_pmkid (list_eq_dec N.eq_dec)) (rsn_pmkids x) (rsn_pmkids y)
  && opt_eqb (fun a b => if cipher_eq_dec a b then true else false) (rsn_group_mgmt x) (rsn_group_mgmt y).
End Rsn.
