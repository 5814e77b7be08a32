(** Small public functions that are not part of reading and writing frames: durations, the macros that
    make values at compile time, and the comparison of rates elements. *)
From Coq Require Import SpecFloat.
From Verif Require Import Base Bits Layouts Common Elements ElementTypes Rsn Tim Mgmt.

Section Accessors.
Context {cfg : Cfg}.
(** /repo/src/frames/mgmt_frame/body/beacon.rs:55-57, in microseconds *)
Definition beacon_timestamp_us {E} (b : BeaconLikeBody E) : N := bb_timestamp b.

(** /repo/src/common/aid.rs:5 [AssociationID::new()] and [AssociationID::default()], public functions generated by
    [#[bitfield]]; the derived [Default] of mesh peering confirm bodies (self_protected.rs:114) uses the latter *)
Definition aid_default : AssociationID := aid_new.
(** /repo/src/common/aid.rs:76-89 [aid!]; a panic is a compile-time error *)
Definition aid_macro (aid : N) : Res serr AssociationID :=
  if (aid =? 0)%N then Panic else if (2007 <? aid)%N then Panic else aid_new_unchecked aid.
(** /repo/src/elements/ssid.rs:168-183 [ssid_internal!], used by [ssid!] and [mesh_id!] *)
Definition ssid_macro (ssid : bytes) : Res serr bytes := if length ssid <=? 32 then Ok ssid else Panic.
(** ssid.rs:89-91 *)
Definition ssid_length_in_bytes (ssid : bytes) : nat := length ssid.
(** the assertions of [supported_rates!] and [extended_supported_rates!], rates/supported_rates.rs:110-142 and
    rates/extended_supported_rates.rs:107-145; the rates themselves come from [rate!] *)
Definition supported_rates_macro (rates : list N) : Res serr (list N) := if length rates <=? 8 then Ok rates else Panic.
Definition extended_supported_rates_macro (rates : list N) : Res serr (list N) := if length rates <=? 251 then Ok rates else Panic.

(** ** [rate!], rates/supported_rates.rs:125-144 *)
(** [f32] is the format with 24 bits of mantissa; [Coq.Floats.SpecFloat] defines IEEE 754 arithmetic on it, rounding to
    nearest even, as const_soft_float (dependency) does. *)
Definition f32_mul : spec_float -> spec_float -> spec_float := SFmul 24 128.
(** an integer as [f32] *)
Definition f32_of_N (n : N) : spec_float := binary_normalize 24 128 (Z.of_N n) 0 false.
(** [as usize]: towards zero, saturating at both ends, NaN becomes zero *)
Definition f32_as_usize (x : spec_float) : N :=
  match x with
  | S754_finite false m e =>
      N.min (if (0 <=? e)%Z then N.pos m * 2 ^ Z.to_N e else N.pos m / 2 ^ Z.to_N (- e)) (2 ^ 64 - 1)
  | S754_infinity false => (2 ^ 64 - 1)%N
  | _ => 0%N
  end.
Definition rate_macro (rate : spec_float) (is_b : bool) : Res serr N :=
  from_rate_in_kbps (f32_as_usize (f32_mul rate (f32_of_N 1000))) is_b.

(** /repo/src/elements/mod.rs:62-64 *)
Definition eid_is_ext (e : ElementID) : bool := match e with ExtId _ => true | _ => false end.
(** mod.rs:152-172 [TypedIEEE80211ExtElement]: the extended ID and the payload, for any type of payload; its writer is
    [wr_typed_ext] *)
Definition rd_typed_ext {A} (r : reader A) : reader (N * A) := fun from =>
  '(ext_id, off) <- gread rd_u8 from 0 ;;
  '(payload, off) <- gread r from off ;;
  Ok ((ext_id, payload), off).
(** mod.rs:174-178; the argument is what the payload announces *)
Definition typed_ext_measure (payload : nat) : nat := payload + 1.

(** ** Comparing rates elements, rates/supported_rates.rs:52-65 and rates/extended_supported_rates.rs:51-65.
    Either side is an array of rates or the iterator over received bytes (rates/rate_iter.rs). *)
Definition rates_items (x : RList N) : Res serr (list N) :=
  match x with Arr l => Ok l | Iter bs => rates_collect bs end.
Definition rates_eq (x y : RList N) : Res serr bool :=
  u <- rates_items x ;; v <- rates_items y ;; Ok (bytes_eqb u v).
(** writing an element of either kind *)
Definition rates_write (t : ElementType (list N) bytes) (x : RList N) : writer := fun buf =>
  l <- rates_items x ;; et_write t l buf.
End Accessors.
