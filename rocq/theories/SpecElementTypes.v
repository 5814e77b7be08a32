(** Value ranges and wire formats of the element types (IEEE Std 802.11-2020, 9.4.2), written
    without the reading and writing code. *)
From Verif Require Import Base SpecBase Bits Layouts Enums Elements ElementTypes SpecUtf8.

Definition u8 (v : N) : Prop := (v < 256)%N.
Definition u16 (v : N) : Prop := (v < 65536)%N.
Definition u32 (v : N) : Prop := (v < 2 ^ 32)%N.
Definition u64 (v : N) : Prop := (v < 2 ^ 64)%N.
Definition byte_array (n : nat) (bs : bytes) : Prop := length bs = n /\ wf_bytes bs.
(** a number the enumeration shows as the given value, of the width of the field *)
Definition canonical {E} (from : N -> E) (into : E -> N) (bound : N) (v : E) : Prop :=
  from (into v) = v /\ (into v < bound)%N.

(** 9.4.2.2, 9.4.2.98: SSID and mesh ID *)
Definition ok_ssid (s : bytes) : Prop := wf_bytes s /\ length s <= 32 /\ is_utf8 s.
(** 9.4.2.3, 9.4.2.12: rates, one byte each *)
Definition ok_rates (max : nat) (l : list N) : Prop := wf_bytes l /\ length l <= max.
(** 9.4.2.4: one byte with the current channel *)
Definition enc_dsss (ch : N) : bytes := [ch].
(** 9.4.2.6: ATIM window, two bytes *)
Definition enc_ibss (w : N) : bytes := le_bytes 2 w.
(** 9.4.2.27: station count (2), channel utilization (1), available admission capacity (2) *)
Definition ok_bss_load (x : BSSLoad) : Prop :=
  u16 (bl_station_count x) /\ u8 (bl_channel_utilization x) /\ u16 (bl_capacity x).
Definition enc_bss_load (x : BSSLoad) : bytes :=
  le_bytes 2 (bl_station_count x) ++ [bl_channel_utilization x] ++ le_bytes 2 (bl_capacity x).
(** 9.4.2.55.4: 10 bytes receive MCS bitmask (77 bits, 3 reserved), the rest 6 bytes, of which the
    last 16 bits are reserved *)
Definition ok_mcs_set (x : MCSSet) : Prop := byte_array 10 (mcs_rx x) /\ u32 (mcs_flags x).
Definition enc_mcs_set (x : MCSSet) : bytes := mcs_rx x ++ le_bytes 4 (mcs_flags x) ++ [0; 0]%N.
(** 9.4.2.55.1 *)
Definition ok_ht_cap (x : HTCapabilities) : Prop :=
  u16 (hc_info x) /\ u8 (hc_ampdu x) /\ ok_mcs_set (hc_mcs x) /\ u16 (hc_ext x) /\ u32 (hc_txbf x) /\ u8 (hc_asel x).
Definition enc_ht_cap (x : HTCapabilities) : bytes :=
  le_bytes 2 (hc_info x) ++ [hc_ampdu x] ++ enc_mcs_set (hc_mcs x) ++
  le_bytes 2 (hc_ext x) ++ le_bytes 4 (hc_txbf x) ++ [hc_asel x].
(** the reserved bytes inside the MCS set are zero *)
Definition canon_ht_cap (bs : bytes) : Prop := firstn 2 (skipn 17 bs) = [0; 0]%N.
(** 9.4.2.56: primary channel, 5 bytes of information, basic MCS set *)
Definition ok_ht_op (x : HTOperation) : Prop :=
  u8 (ho_channel x) /\ (ho_info x < 2 ^ 40)%N /\ ok_mcs_set (ho_mcs x).
Definition enc_ht_op (x : HTOperation) : bytes :=
  [ho_channel x] ++ le_bytes 5 (ho_info x) ++ enc_mcs_set (ho_mcs x).
(** 9.4.2.157.1 *)
Definition ok_vht_cap (x : VHTCapabilities) : Prop := u32 (vc_info x) /\ u64 (vc_mcs_nss x).
Definition enc_vht_cap (x : VHTCapabilities) : bytes := le_bytes 4 (vc_info x) ++ le_bytes 8 (vc_mcs_nss x).
(** 9.4.2.158 *)
Definition ok_vht_op (x : VHTOperation) : Prop :=
  canonical channel_width_from_bits channel_width_into_bits 256 (vo_bandwidth x) /\
  u8 (vo_seg0 x) /\ u8 (vo_seg1 x) /\ u16 (vo_mcs x).
Definition enc_vht_op (x : VHTOperation) : bytes :=
  [channel_width_into_bits (vo_bandwidth x)] ++ [vo_seg0 x] ++ [vo_seg1 x] ++ le_bytes 2 (vo_mcs x).
(** 9.4.2.97 *)
Definition ok_mesh_conf (x : MeshConfiguration) : Prop :=
  canonical mesh_path_proto_from_bits mesh_path_proto_into_bits 256 (mc_protocol x) /\
  canonical mesh_path_metric_from_bits mesh_path_metric_into_bits 256 (mc_metric x) /\
  canonical mesh_congestion_from_bits mesh_congestion_into_bits 256 (mc_congestion x) /\
  canonical mesh_sync_from_bits mesh_sync_into_bits 256 (mc_sync x) /\
  canonical mesh_auth_from_bits mesh_auth_into_bits 256 (mc_auth x) /\
  u8 (mc_formation x) /\ u8 (mc_capability x).
Definition enc_mesh_conf (x : MeshConfiguration) : bytes :=
  [mesh_path_proto_into_bits (mc_protocol x)] ++ [mesh_path_metric_into_bits (mc_metric x)] ++
  [mesh_congestion_into_bits (mc_congestion x)] ++ [mesh_sync_into_bits (mc_sync x)] ++
  [mesh_auth_into_bits (mc_auth x)] ++ [mc_formation x] ++ [mc_capability x].

(** ** OWE transition mode (Wi-Fi Alliance OWE specification 2.2.1): BSSID, SSID length, SSID,
    optional band and channel information *)
Definition ok_owe (utf8 : bytes -> Prop) (x : OWETransition) : Prop :=
  byte_array 6 (owe_bssid x) /\ wf_bytes (owe_ssid x) /\ length (owe_ssid x) <= 255 /\ utf8 (owe_ssid x) /\
  match owe_band x with Some (a, b) => u8 a /\ u8 b | None => True end.
Definition enc_owe (x : OWETransition) : bytes :=
  owe_bssid x ++ [N.of_nat (length (owe_ssid x))] ++ owe_ssid x ++
  match owe_band x with Some (a, b) => [a] ++ [b] | None => [] end.
(** An element without SSID and band information ends in an empty string, which a strict scroll
    refuses to read. *)
Definition owe_ok {cfg : Cfg} (x : OWETransition) : Prop :=
  ok_owe is_utf8 x /\ (strict_end = false \/ owe_ssid x <> [] \/ owe_band x <> None).
(** ** GTK KDE, 12.7.2, Figure 12-38: two bytes of information, the key *)
Definition ok_gtk (x : Gtk) : Prop := u16 (gtk_info x) /\ wf_bytes (gtk_key x).
Definition enc_gtk (x : Gtk) : bytes := le_bytes 2 (gtk_info x) ++ gtk_key x.

(** ** Modulation and coding schemes *)
(** the receive MCS bitmask has bit [i]: bit [i mod 8] of byte [i / 8] *)
Definition rx_bit (bs : bytes) (i : nat) : bool := N.testbit (nth (i / 8) bs 0%N) (N.of_nat (i mod 8)).
(** Table 9-187 (transmit MCS set): the fields of the flags by bit position *)
Definition spec_tx_mcs_set_defined (f : N) : bool := N.testbit f 16.
Definition spec_tx_rx_not_equal (f : N) : bool := N.testbit f 17.
Definition spec_tx_streams (f : N) : N := (f / 2 ^ 18 mod 4)%N.
Definition spec_tx_unequal_modulation (f : N) : bool := N.testbit f 20.
(** no transmit MCS set is defined: all of the four fields are zero *)
Definition spec_tx_undefined (f : N) : bool :=
  negb (spec_tx_mcs_set_defined f) && negb (spec_tx_rx_not_equal f)
  && (spec_tx_streams f =? 0)%N && negb (spec_tx_unequal_modulation f).
(** defined to be equal to the receive MCS set: 1, 0, 0, 0 *)
Definition spec_tx_equal (f : N) : bool :=
  spec_tx_mcs_set_defined f && negb (spec_tx_rx_not_equal f)
  && (spec_tx_streams f =? 0)%N && negb (spec_tx_unequal_modulation f).
(** may differ from the receive MCS set: 1, 1, any, any *)
Definition spec_tx_may_differ (f : N) : bool :=
  spec_tx_mcs_set_defined f && spec_tx_rx_not_equal f.
(** 9.4.2.157.3: stream [nss] (1..8) has the bits [2 nss - 2], [2 nss - 1]; 3 = not supported *)
Definition spec_vht_mcs (map : N) (nss : nat) : N := (map / 4 ^ N.of_nat (nss - 1) mod 4)%N.

(** one of the four values of the field *)
Definition vht_canonical (x : VHTMCSSupport) : Prop :=
  vht_mcs_from_bits (vht_mcs_into_bits x) = x /\ (vht_mcs_into_bits x < 4)%N.

(** the field of entry [i] of a list, zero if there is none *)
Definition entry_bits (l : list VHTMCSSupport) (i : nat) : N :=
  match nth_error l i with Some x => vht_mcs_into_bits x | None => 0%N end.

(** ** Mesh peering management, 9.4.2.99: protocol (2), local link ID (2), then depending on the
    action: open: optional PMK; confirm: peer link ID, optional PMK; close: optional peer link ID,
    reason, optional PMK. All integers little-endian in the standard; the crate uses the byte
    order of the target. *)
Definition opt_bytes {A} (f : A -> bytes) (o : option A) : bytes := match o with Some a => f a | None => [] end.
Section Peering.
Context {cfg : Cfg}.
Definition int16 (v : N) : bytes := if native_le then le_bytes 2 v else be_bytes 2 v.
Definition enc_open (pmk : option bytes) : bytes := opt_bytes (fun k => k) pmk.
Definition enc_confirm (peer : N) (pmk : option bytes) : bytes := int16 peer ++ opt_bytes (fun k => k) pmk.
Definition enc_close (peer : option N) (reason : N) (pmk : option bytes) : bytes :=
  opt_bytes int16 peer ++ int16 reason ++ opt_bytes (fun k => k) pmk.
(** the element as received or built: protocol, local link ID and the bytes [rest] behind them *)
Definition peering_is (p : MeshPeeringProtocolIdentifier) (local : N) (rest : bytes) (x : MeshPeering) : Prop :=
  x = mkPeering p local (rest ++ repeat 0%N (20 - length rest)) (length rest).
Definition enc_peering (p : MeshPeeringProtocolIdentifier) (local : N) (rest : bytes) : bytes :=
  int16 (mesh_peering_proto_into_bits p) ++ int16 local ++ rest.
Definition ok_pmk (pmk : option bytes) : Prop := match pmk with Some k => byte_array 16 k | None => True end.
Definition ok_link (l : option N) : Prop := match l with Some l => u16 l | None => True end.
Definition ok_proto (p : MeshPeeringProtocolIdentifier) : Prop :=
  canonical mesh_peering_proto_from_bits mesh_peering_proto_into_bits 65536 p.
Definition ok_reason (r : IEEE80211Reason) : Prop := canonical reason_from_bits reason_into_bits 65536 r.
End Peering.
