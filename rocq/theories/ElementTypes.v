(** The element types of /repo/src/elements except RSN and TIM. *)
From Verif Require Import Base Bits Layouts Enums Utf8 Elements.

Section Types.
Context {cfg : Cfg}.

(** ** SSID and mesh ID, ssid.rs. Values are the UTF-8 bytes of the string. *)
(** ssid.rs:30-39, 45-54 ([const_new] and [new] are the same check) *)
Definition ssid_new (ssid : bytes) : option bytes := if length ssid <=? 32 then Some ssid else None.
(** ssid.rs:82-84 *)
Definition ssid_is_hidden (ssid : bytes) : bool := match ssid with [] => true | _ => false end.
(** ssid.rs:116-129 *)
Definition rd_ssid : reader bytes := fun from =>
  if 32 <? length from then Err TooBig else rd_str (length from) from.
(** ssid.rs:130-143 *)
Definition wr_ssid (ssid : bytes) : writer := fun buf => pwrite (wr_bytes ssid) buf 0.
(** ssid.rs:148-150, 161-163 *)
Definition SSIDElement : ElementType bytes bytes := mkET (Id 0) (@length N) wr_ssid rd_ssid.
Definition MeshIDElement : ElementType bytes bytes := mkET (Id 0x72) (@length N) wr_ssid rd_ssid.

(** ** Rates, rates/*.rs. An [EncodedRate] is its byte; an iterator of rates is a list. *)
(** rates/mod.rs:31-33 *)
Definition rate_in_kbps (r : N) : N := (lget EncodedRate_layout "rate" r * 500)%N.
(** rates/mod.rs:36-38; [as u8] truncates, [with_rate] asserts 7 bits in debug builds *)
Definition from_rate_in_kbps (rate : N) (is_b : bool) : Res serr N :=
  r <- lwith EncodedRate_layout "rate" ((rate / 500) mod 256)%N 0 ;;
  Ok (lsetb EncodedRate_layout "is_b" is_b r).
(** rates/supported_rates.rs:44-50 *)
Definition supported_rates_new (rates : list N) : option (list N) :=
  if length rates <=? 8 then Some rates else None.
(** rates/supported_rates.rs:72-87; the value read is the byte slice under the iterator *)
Definition rd_supported_rates : reader bytes := fun from =>
  if 8 <? length from then Err TooBig else Ok (from, length from).
(** rates/supported_rates.rs:88-101 *)
Definition wr_supported_rates (rates : list N) : writer := wseq (map wr_u8 (firstn 8 rates)).
(** rates/supported_rates.rs:66-71, 103-106 *)
Definition SupportedRatesElement : ElementType (list N) bytes :=
  mkET (Id 1) (@length N) wr_supported_rates rd_supported_rates.
(** rates/extended_supported_rates.rs:43-49 *)
Definition extended_supported_rates_new (rates : list N) : option (list N) :=
  if length rates <=? 251 then Some rates else None.
(** rates/extended_supported_rates.rs:73-91 *)
Definition rd_extended_supported_rates : reader bytes := fun from =>
  if 255 <? length from then Err TooBig else Ok (from, length from).
(** rates/extended_supported_rates.rs:92-101 *)
Definition wr_extended_supported_rates (rates : list N) : writer := wseq (map wr_u8 rates).
(** rates/extended_supported_rates.rs:66-72, 102-105 *)
Definition ExtendedSupportedRatesElement : ElementType (list N) bytes :=
  mkET (Id 0x32) (@length N) wr_extended_supported_rates rd_extended_supported_rates.
(** rates/rate_iter.rs:12-25: the rates of a parsed element *)
Definition rates_collect (bs : bytes) : Res serr (list N) := iter_all rd_u8 bs.

(** ** DSSS parameter set, dsss_parameter_set.rs:14-45 *)
Definition rd_dsss : reader N := fun from => ch <- pread rd_u8 from 0 ;; Ok (ch, 1).
Definition wr_dsss (ch : N) : writer := fun buf => pwrite (wr_u8 ch) buf 0.
Definition DSSSParameterSetElement : ElementType N N := mkET (Id 3) (fun _ => 1) wr_dsss rd_dsss.

(** ** IBSS parameter set, ibss_parameter_set.rs *)
(** ibss_parameter_set.rs:22-24, in microseconds *)
Definition atim_window_us (w : N) : N := (1024 * w)%N.
(** ibss_parameter_set.rs:26-30; [as u16] truncates *)
Definition ibss_new (duration_us : N) : N := ((duration_us / 1024) mod 65536)%N.
(** ibss_parameter_set.rs:32-58 *)
Definition rd_ibss : reader N := fun from => w <- pread (rd_le 2) from 0 ;; Ok (w, 2).
Definition wr_ibss (w : N) : writer := fun buf => pwrite (wr_le 2 w) buf 0.
Definition IBSSParameterSetElement : ElementType N N := mkET (Id 6) (fun _ => 2) wr_ibss rd_ibss.

(** ** BSS load, bss_load.rs:11-65 *)
Record BSSLoad := mkBSSLoad { bl_station_count : N; bl_channel_utilization : N; bl_capacity : N }.
Definition rd_bss_load : reader BSSLoad := fun from =>
  '(a, off) <- gread (rd_le 2) from 0 ;;
  '(b, off) <- gread rd_u8 from off ;;
  '(c, off) <- gread (rd_le 2) from off ;;
  Ok (mkBSSLoad a b c, off).
Definition wr_bss_load (x : BSSLoad) : writer :=
  wseq [wr_le 2 (bl_station_count x); wr_u8 (bl_channel_utilization x); wr_le 2 (bl_capacity x)].
Definition BSSLoadElement : ElementType BSSLoad BSSLoad := mkET (Id 0x0b) (fun _ => 5) wr_bss_load rd_bss_load.

(** ** HT: ht/mcs_set.rs, ht/capabilities.rs, ht/operation.rs *)
(** ht/mcs_set.rs:59-62 *)
Record MCSSet := mkMCS { mcs_rx : bytes; mcs_flags : N }.
(** ht/mcs_set.rs:35-40 *)
Definition is_tx_mcs_undefined (f : N) : bool :=
  let l := SupportedMCSSetFlags_layout in
  negb (lgetb l "tx_mcs_set_defined" f && lgetb l "tx_rx_mcs_set_not_equal" f
        && (lget l "tx_maximum_number_spatial_streams_supported" f =? 0)%N
        && lgetb l "tx_unequal_modulation_supported" f).
(** ht/mcs_set.rs:42-47 *)
Definition is_tx_rx_mcs_defined_equal (f : N) : bool :=
  let l := SupportedMCSSetFlags_layout in
  is_tx_mcs_undefined f && negb (lgetb l "tx_rx_mcs_set_not_equal" f)
  && (lget l "tx_maximum_number_spatial_streams_supported" f =? 0)%N
  && negb (lgetb l "tx_unequal_modulation_supported" f).
(** ht/mcs_set.rs:49-51 *)
Definition may_tx_mcs_set_differ_from_rx (f : N) : bool :=
  is_tx_mcs_undefined f && lgetb SupportedMCSSetFlags_layout "tx_rx_mcs_set_not_equal" f.
(** ht/mcs_set.rs:64-68 *)
Definition supported_rx_mcs_indices (x : MCSSet) : list bool :=
  flat_map (fun b => map (fun i => N.testbit b (N.of_nat i)) (seq 0 8)) (mcs_rx x).
(** ht/mcs_set.rs:75-97; two bytes are skipped without a check *)
Definition rd_mcs_set : reader MCSSet := fun from =>
  '(set, off) <- gread (rd_bytes 10) from 0 ;;
  '(flags, off) <- gread (rd_bytes 4) from off ;;
  Ok (mkMCS set (le_val flags), off + 2).
(** ht/mcs_set.rs:98-111 *)
Definition wr_mcs_set (x : MCSSet) : writer :=
  wseq [wr_bytes (mcs_rx x); wr_bytes (firstn 6 (le_bytes 8 (mcs_flags x)))].
(** set bit [i mod 8] of byte [i / 8] to [b]; [set_bit!] of macro-bits *)
Fixpoint set_bit_at (bs : bytes) (i : nat) (b : bool) : bytes :=
  match bs with
  | [] => []
  | x :: bs' =>
      if i <? 8 then (if b then N.setbit x (N.of_nat i) else N.clearbit x (N.of_nat i)) :: bs'
      else x :: set_bit_at bs' (i - 8) b
  end.
Fixpoint set_bits_from (i : nat) (l : list bool) (bs : bytes) : bytes :=
  match l with [] => bs | b :: l' => set_bits_from (S i) l' (set_bit_at bs i b) end.
(** ht/mcs_set.rs:113-125 *)
Definition generate_supported_rx_mcs_set (l : list bool) : bytes :=
  set_bits_from 0 (firstn 76 l) (repeat 0%N 10).
(** ht/mcs_set.rs:138-162: the listing form of the macro; a failed assertion is [Panic] (at
    compile time) *)
Fixpoint rx_mcs_listing (l : list nat) (buf : bytes) : Res serr bytes :=
  match l with
  | [] => Ok buf
  | i :: l' =>
      if 77 <=? i then Panic
      else if N.testbit (nth (i / 8) buf 0%N) (N.of_nat (i mod 8)) then Panic
      else rx_mcs_listing l' (set_bit_at buf i true)
  end.
Definition supported_rx_mcs_set_listing (l : list nat) : Res serr bytes :=
  rx_mcs_listing l (repeat 0%N 10).
(** ht/mcs_set.rs:163-183: the range form *)
Definition supported_rx_mcs_set_range (s e : nat) : Res serr bytes :=
  if 77 <=? e then Panic
  else Ok (fold_left (fun buf i => set_bit_at buf i true) (seq s (e - s)) (repeat 0%N 10)).

(** ht/capabilities.rs:255-262 *)
Record HTCapabilities := mkHTCap {
  hc_info : N; hc_ampdu : N; hc_mcs : MCSSet; hc_ext : N; hc_txbf : N; hc_asel : N }.
(** ht/capabilities.rs:268-298 *)
Definition rd_ht_cap : reader HTCapabilities := fun from =>
  '(a, off) <- gread (rd_le 2) from 0 ;;
  '(b, off) <- gread (rd_le 1) from off ;;
  '(c, off) <- gread rd_mcs_set from off ;;
  '(d, off) <- gread (rd_le 2) from off ;;
  '(e, off) <- gread (rd_le 4) from off ;;
  '(f, off) <- gread (rd_le 1) from off ;;
  Ok (mkHTCap a b c d e f, off).
(** ht/capabilities.rs:299-333 *)
Definition wr_ht_cap (x : HTCapabilities) : writer :=
  wseq [wr_le 2 (hc_info x); wr_le 1 (hc_ampdu x); wr_mcs_set (hc_mcs x);
        wr_le 2 (hc_ext x); wr_le 4 (hc_txbf x); wr_le 1 (hc_asel x)].
(** ht/capabilities.rs:263-267, 334-337 *)
Definition HTCapabilitiesElement : ElementType HTCapabilities HTCapabilities :=
  mkET (Id 0x2d) (fun _ => 26) wr_ht_cap rd_ht_cap.

(** ht/operation.rs:92-99 *)
Record HTOperation := mkHTOp { ho_channel : N; ho_info : N; ho_mcs : MCSSet }.
(** ht/operation.rs:105-126; five bytes of a little-endian [u64] *)
Definition rd_ht_op : reader HTOperation := fun from =>
  '(a, off) <- gread rd_u8 from 0 ;;
  '(b, off) <- gread (rd_bytes 5) from off ;;
  '(c, off) <- gread rd_mcs_set from off ;;
  Ok (mkHTOp a (le_val b) c, off).
(** ht/operation.rs:127-141; the first five bytes of the big-endian [u64] *)
Definition wr_ht_op (x : HTOperation) : writer :=
  wseq [wr_u8 (ho_channel x); wr_bytes (firstn 5 (be_bytes 8 (ho_info x))); wr_mcs_set (ho_mcs x)].
(** ht/operation.rs:100-104, 142-145 *)
Definition HTOperationElement : ElementType HTOperation HTOperation :=
  mkET (Id 0x3d) (fun _ => 22) wr_ht_op rd_ht_op.

(** ** VHT: vht.rs *)
(** vht.rs:48-55 *)
Definition maximum_mpdu_length_in_bytes (info : N) : option N :=
  match lget VHTCapabilitiesInfo_layout "maximum_mpdu_length" info with
  | 0 => Some 3895 | 1 => Some 7991 | 2 => Some 11454 | _ => None
  end%N.
(** vht.rs:56-66 *)
Definition with_maximum_mpdu_length_in_bytes (info len : N) : N :=
  lset VHTCapabilitiesInfo_layout "maximum_mpdu_length"
    (if len =? 3895 then 0 else if len =? 7991 then 1 else if len =? 11454 then 2 else 3)%N info.
(** vht.rs:93-101 *)
Definition vht_mcs_support_for_nss (map nss : N) : option VHTMCSSupport :=
  if ((1 <=? nss) && (nss <? 9))%N
  then Some (vht_mcs_from_bits (N.land (N.shiftr map ((nss - 1) * 2)) 3))
  else None.
(** vht.rs:103-105 *)
Definition vht_mcs_support_iter (map : N) : list VHTMCSSupport :=
  flat_map (fun nss => match vht_mcs_support_for_nss map nss with Some x => [x] | None => [] end)
    [1; 2; 3; 4; 5; 6; 7; 8]%N.
(** [u8 << n]: in debug builds a shift by 8 or more panics, in release builds the amount is
    taken modulo 8; bits shifted out are lost *)
Definition shl_u8 (x n : N) : Res serr N :=
  if overflow_checks && (8 <=? n)%N then Panic else Ok (N.shiftl x (n mod 8) mod 256)%N.
(** vht.rs:107-116 *)
Fixpoint vht_mcs_fold (i : N) (l : list VHTMCSSupport) (acc : N) : Res serr N :=
  match l with
  | [] => Ok acc
  | x :: l' => s <- shl_u8 (vht_mcs_into_bits x) (i * 2) ;; vht_mcs_fold (i + 1) l' (N.lor acc s)
  end.
Definition from_vht_mcs_iter (l : list VHTMCSSupport) : Res serr N := vht_mcs_fold 0 (firstn 8 l) 0.

(** vht.rs:143-146 *)
Record VHTCapabilities := mkVHTCap { vc_info : N; vc_mcs_nss : N }.
(** vht.rs:147-189 *)
Definition rd_vht_cap : reader VHTCapabilities := fun from =>
  '(a, off) <- gread (rd_le 4) from 0 ;;
  '(b, off) <- gread (rd_le 8) from off ;;
  Ok (mkVHTCap a b, off).
Definition wr_vht_cap (x : VHTCapabilities) : writer := wseq [wr_le 4 (vc_info x); wr_le 8 (vc_mcs_nss x)].
Definition VHTCapabilitiesElement : ElementType VHTCapabilities VHTCapabilities :=
  mkET (Id 0xbf) (fun _ => 12) wr_vht_cap rd_vht_cap.
(** vht.rs:201-206 *)
Record VHTOperation := mkVHTOp { vo_bandwidth : ChannelWidth; vo_seg0 : N; vo_seg1 : N; vo_mcs : N }.
(** vht.rs:207-254 *)
Definition rd_vht_op : reader VHTOperation := fun from =>
  '(a, off) <- gread rd_u8 from 0 ;;
  '(b, off) <- gread rd_u8 from off ;;
  '(c, off) <- gread rd_u8 from off ;;
  '(d, off) <- gread (rd_le 2) from off ;;
  Ok (mkVHTOp (channel_width_from_bits a) b c d, off).
Definition wr_vht_op (x : VHTOperation) : writer :=
  wseq [wr_u8 (channel_width_into_bits (vo_bandwidth x)); wr_u8 (vo_seg0 x); wr_u8 (vo_seg1 x); wr_le 2 (vo_mcs x)].
Definition VHTOperationElement : ElementType VHTOperation VHTOperation :=
  mkET (Id 0xc0) (fun _ => 5) wr_vht_op rd_vht_op.

(** ** Mesh configuration, mesh/mesh_configuration.rs:92-176 *)
Record MeshConfiguration := mkMeshConf {
  mc_protocol : MeshConfigurationActivePathSelectionProtocolIdentifier;
  mc_metric : MeshConfigurationActivePathSelectionMetricIdentifier;
  mc_congestion : MeshConfigurationCongestionControlModeIdentifier;
  mc_sync : MeshConfigurationSynchronizationMethodIdentifier;
  mc_auth : MeshConfigurationAuthenticationProtocolIdentifier;
  mc_formation : N;
  mc_capability : N }.
Definition rd_mesh_conf : reader MeshConfiguration := fun from =>
  '(a, off) <- gread rd_u8 from 0 ;;
  '(b, off) <- gread rd_u8 from off ;;
  '(c, off) <- gread rd_u8 from off ;;
  '(d, off) <- gread rd_u8 from off ;;
  '(e, off) <- gread rd_u8 from off ;;
  '(f, off) <- gread rd_u8 from off ;;
  '(g, off) <- gread rd_u8 from off ;;
  Ok (mkMeshConf (mesh_path_proto_from_bits a) (mesh_path_metric_from_bits b)
        (mesh_congestion_from_bits c) (mesh_sync_from_bits d) (mesh_auth_from_bits e) f g, off).
Definition wr_mesh_conf (x : MeshConfiguration) : writer :=
  wseq [wr_u8 (mesh_path_proto_into_bits (mc_protocol x)); wr_u8 (mesh_path_metric_into_bits (mc_metric x));
        wr_u8 (mesh_congestion_into_bits (mc_congestion x)); wr_u8 (mesh_sync_into_bits (mc_sync x));
        wr_u8 (mesh_auth_into_bits (mc_auth x)); wr_u8 (mc_formation x); wr_u8 (mc_capability x)].
Definition MeshConfigurationElement : ElementType MeshConfiguration MeshConfiguration :=
  mkET (Id 113) (fun _ => 7) wr_mesh_conf rd_mesh_conf.

(** ** Mesh peering management, mesh/mesh_peering_management.rs *)
(** mesh_peering_management.rs:26-31; [rest] always has 20 bytes *)
Record MeshPeering := mkPeering {
  mp_protocol : MeshPeeringProtocolIdentifier; mp_local : N; mp_rest : bytes; mp_rest_len : nat }.
(** mesh_peering_management.rs:34-40 *)
Record ParsedMeshPeering := mkParsed {
  pp_protocol : MeshPeeringProtocolIdentifier; pp_local : N; pp_peer : option N;
  pp_reason : option IEEE80211Reason; pp_pmk : option bytes }.
(** [rest.gwrite(...).unwrap()] calls on the 20 byte array; the last component is the offset *)
Definition rest_writes (ws : list writer) : Res serr (bytes * nat) :=
  res_unwrap (wseq_from ws (repeat 0%N 20) 0).
Definition opt_writer {A} (f : A -> writer) (o : option A) : list writer :=
  match o with Some a => [f a] | None => [] end.
(** mesh_peering_management.rs:47-65 *)
Definition peering_new_open p local (pmk : option bytes) : Res serr MeshPeering :=
  '(rest, off) <- rest_writes (opt_writer wr_bytes pmk) ;; Ok (mkPeering p local rest off).
(** mesh_peering_management.rs:67-88 *)
Definition peering_new_confirm p local (peer : N) (pmk : option bytes) : Res serr MeshPeering :=
  '(rest, off) <- rest_writes (wr_ne 2 peer :: opt_writer wr_bytes pmk) ;; Ok (mkPeering p local rest off).
(** mesh_peering_management.rs:90-115 *)
Definition peering_new_close p local (peer : option N) (reason : IEEE80211Reason) (pmk : option bytes) : Res serr MeshPeering :=
  '(rest, off) <- rest_writes (opt_writer (wr_ne 2) peer ++ wr_ne 2 (reason_into_bits reason) :: opt_writer wr_bytes pmk) ;;
  Ok (mkPeering p local rest off).
(** [self.rest.gread(&mut offset).unwrap()] *)
Definition rest_read {A} (r : reader A) (x : MeshPeering) (off : nat) : Res serr (A * nat) :=
  res_unwrap (gread r (mp_rest x) off).
(** mesh_peering_management.rs:117-136 *)
Definition parse_as_open (x : MeshPeering) : Res serr (option ParsedMeshPeering) :=
  if mp_rest_len x =? 0 then Ok (Some (mkParsed (mp_protocol x) (mp_local x) None None None))
  else if mp_rest_len x =? 16 then
    '(pmk, _) <- rest_read (rd_bytes 16) x 0 ;;
    Ok (Some (mkParsed (mp_protocol x) (mp_local x) None None (Some pmk)))
  else Ok None.
(** mesh_peering_management.rs:138-161 *)
Definition parse_as_confirm (x : MeshPeering) : Res serr (option ParsedMeshPeering) :=
  if mp_rest_len x =? 2 then
    '(peer, _) <- rest_read (rd_ne 2) x 0 ;;
    Ok (Some (mkParsed (mp_protocol x) (mp_local x) (Some peer) None None))
  else if mp_rest_len x =? 18 then
    '(peer, off) <- rest_read (rd_ne 2) x 0 ;;
    '(pmk, _) <- rest_read (rd_bytes 16) x off ;;
    Ok (Some (mkParsed (mp_protocol x) (mp_local x) (Some peer) None (Some pmk)))
  else Ok None.
(** mesh_peering_management.rs:163-200 *)
Definition parse_as_close (x : MeshPeering) : Res serr (option ParsedMeshPeering) :=
  let mk peer reason pmk := Ok (Some (mkParsed (mp_protocol x) (mp_local x) peer (Some (reason_from_bits reason)) pmk)) in
  if mp_rest_len x =? 2 then
    '(reason, _) <- rest_read (rd_ne 2) x 0 ;; mk None reason None
  else if mp_rest_len x =? 4 then
    '(peer, off) <- rest_read (rd_ne 2) x 0 ;;
    '(reason, _) <- rest_read (rd_ne 2) x off ;; mk (Some peer) reason None
  else if mp_rest_len x =? 18 then
    '(reason, off) <- rest_read (rd_ne 2) x 0 ;;
    '(pmk, _) <- rest_read (rd_bytes 16) x off ;; mk None reason (Some pmk)
  else if mp_rest_len x =? 20 then
    '(peer, off) <- rest_read (rd_ne 2) x 0 ;;
    '(reason, off) <- rest_read (rd_ne 2) x off ;;
    '(pmk, _) <- rest_read (rd_bytes 16) x off ;; mk (Some peer) reason (Some pmk)
  else Ok None.
(** mesh_peering_management.rs:203-226. [copy_from_slice] panics unless the lengths agree;
    the reported size excludes the copied rest. *)
Definition rd_peering : reader MeshPeering := fun from =>
  '(p, off) <- gread (rd_ne 2) from 0 ;;
  '(local, off) <- gread (rd_ne 2) from off ;;
  src <- slice_from from off ;;
  let rest_len := Nat.min 20 (length src) in
  if rest_len =? length src
  then Ok (mkPeering (mesh_peering_proto_from_bits p) local (src ++ repeat 0%N (20 - rest_len)) rest_len, off)
  else Panic.
(** mesh_peering_management.rs:234-248 *)
Definition wr_peering (x : MeshPeering) : writer := fun buf =>
  '(buf, off) <- gwrite (wr_ne 2 (mesh_peering_proto_into_bits (mp_protocol x))) buf 0 ;;
  '(buf, off) <- gwrite (wr_ne 2 (mp_local x)) buf off ;;
  s <- slice_to (mp_rest x) (mp_rest_len x) ;;
  gwrite (wr_bytes s) buf off.
(** mesh_peering_management.rs:228-232, 250-253 *)
Definition MeshPeeringElement : ElementType MeshPeering MeshPeering :=
  mkET (Id 117) (fun x => 2 + 2 + mp_rest_len x) wr_peering rd_peering.

(** ** OWE transition mode, owe_transition.rs *)
(** owe_transition.rs:30-39 *)
Record OWETransition := mkOWE { owe_bssid : bytes; owe_ssid : bytes; owe_band : option (N * N) }.
(** derived [Pread] of [BandAndChannelInfo], owe_transition.rs:14-21 *)
Definition rd_band : reader (N * N) := fun from =>
  '(a, off) <- gread rd_u8 from 0 ;;
  '(b, off) <- gread rd_u8 from off ;;
  Ok ((a, b), off).
(** [from.gread(&mut offset).ok()]: on an error the offset stays *)
Definition gread_ok {A} (r : reader A) (from : bytes) (off : nat) : Res serr (option A * nat) :=
  match gread r from off with
  | Ok (x, off') => Ok (Some x, off')
  | Err _ => Ok (None, off)
  | Panic => Panic
  end.
(** owe_transition.rs:54-74 *)
Definition rd_owe : reader OWETransition := fun from =>
  '(bssid, off) <- gread (rd_bytes 6) from 0 ;;
  '(len, off) <- gread rd_u8 from off ;;
  '(ssid, off) <- gread (rd_str (N.to_nat len)) from off ;;
  '(band, off) <- gread_ok rd_band from off ;;
  Ok (mkOWE bssid ssid band, off).
(** owe_transition.rs:86-100; [as u8] truncates the length *)
Definition wr_owe (x : OWETransition) : writer :=
  wseq ([wr_bytes (owe_bssid x); wr_u8 (N.of_nat (length (owe_ssid x))); wr_bytes (owe_ssid x)]
        ++ opt_writer (fun b => wseq [wr_u8 (fst b); wr_u8 (snd b)]) (owe_band x)).
(** owe_transition.rs:75-85, 101-111 *)
Definition OWETransitionModeElement : ElementType OWETransition OWETransition :=
  mkET (VendorSpecific [0x50; 0x6f; 0x9a; 0x1c]%N)
    (fun x => 6 + 1 + length (owe_ssid x) + match owe_band x with Some _ => 2 | None => 0 end) wr_owe rd_owe.

(** ** Key data encapsulations, kde.rs *)
Definition kde_prefix (selector : N) : bytes := [0x00; 0x0f; 0xac; selector]%N.
(** kde.rs:12-51 for a byte array of the given size *)
Definition kde_bytes (selector : N) (size : nat) : ElementType bytes bytes :=
  mkET (VendorSpecific (kde_prefix selector)) (fun _ => size)
    (fun x buf => pwrite (wr_bytes x) buf 0) (rd_bytes size).
(** kde.rs:52-60 *)
Definition MacAddressKde := kde_bytes 3 6.
Definition PmkidKde := kde_bytes 4 16.
Definition NonceKde := kde_bytes 6 32.
(** kde.rs:61-63 *)
Definition LifetimeKde : ElementType N N :=
  mkET (VendorSpecific (kde_prefix 7)) (fun _ => 4) (fun x buf => pwrite (wr_be 4 x) buf 0) (rd_be 4).
(** kde.rs:72-76 *)
Record Gtk := mkGtk { gtk_info : N; gtk_key : bytes }.
(** kde.rs:77-93 *)
Definition rd_gtk : reader Gtk := fun from =>
  '(info, off) <- gread (rd_le 2) from 0 ;;
  key <- slice_from from off ;;
  Ok (mkGtk info key, length from).
(** kde.rs:94-113 *)
Definition wr_gtk (x : Gtk) : writer := wseq [wr_le 2 (gtk_info x); wr_bytes (gtk_key x)].
Definition GtkKde : ElementType Gtk Gtk :=
  mkET (VendorSpecific (kde_prefix 1)) (fun x => 2 + length (gtk_key x)) wr_gtk rd_gtk.

(** ** Vendor specific element as such, vendor_specific_element.rs:76-81 *)
Definition VendorSpecificElement : ElementType bytes bytes :=
  mkET (Id 0xdd) (@length N) (fun x => wr_vendor (wr_bytes x)) rd_vendor.
End Types.
