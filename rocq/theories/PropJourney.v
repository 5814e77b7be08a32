(** C77: data frames on their way through a network *)
From Verif Require Import Base BaseFacts SpecBase Enums Common Crc Mgmt SpecMgmt MgmtFacts5 Data SpecData Builder SpecPortable SpecJourney JourneyFacts JourneyFacts2.

(** ** Hops *)
(** [pass_along fcs hops frame] (SpecJourney.v): stations, each on its own machine, read the frame, put the next station and themselves
    into the first two address fields and write it again. All the rest arrives as it was sent, over any number of hops, only that every
    big endian machine exchanges the bytes of duration and sequence control. *)
Theorem C77_hops : forall fcs hops k h body, ok_data_header h -> wf_bytes body -> (std_has_payload (subtype_number h) = false -> body = []) ->
  Forall (good_hop (length (enc_frame fcs (enc_data h body)))) (hops ++ [k]) ->
  pass_along fcs (hops ++ [k]) (enc_frame fcs (enc_data h body)) = Ok (enc_frame fcs (enc_data (header_behind hops k h) body)).
Proof. exact hops_exact. Qed.
Print Assumptions C77_hops.
(** So whoever reads a frame between two access points behind any number of hops learns from whom it comes, for whom it is, and the
    payload; and the duration and sequence control if the number of big endian machines is even. *)
Theorem C77_received : forall fcs hops (reader : Cfg) h body, ok_data_header h -> wf_bytes body -> (std_has_payload (subtype_number h) = false -> body = []) ->
  Forall (good_hop (length (enc_frame fcs (enc_data h body)))) hops ->
  N.testbit (dh_flags h) 0 = true -> N.testbit (dh_flags h) 1 = true ->
  exists frame h', pass_along fcs hops (enc_frame fcs (enc_data h body)) = Ok frame /\
    pread (rd_data fcs) frame 0 = Ok (h', if std_has_payload (subtype_number h) then Some body else None) /\
    destination_address h' = destination_address h /\ source_address h' = source_address h /\
    dh_subtype h' = dh_subtype h /\ dh_flags h' = dh_flags h /\ dh_qos h' = dh_qos h /\ dh_ht h' = dh_ht h /\
    let odd := Nat.odd (length (filter big_endian hops) + if @native_le reader then 0 else 1) in
    dh_duration h' = twisted odd (dh_duration h) /\ dh_seq h' = twisted odd (dh_seq h).
Proof. exact hops_received. Qed.
Print Assumptions C77_received.
Example C77_hops_ex : let machine big := {| strict_end := true; native_le := negb big; overflow_checks := true |} in
  let h := mkDH Dt_QoSData 3 300 (addr 1) (addr 2) (addr 3) 0x1230 (Some (addr 4)) (Some [5; 0]%N) None in
  let hops := [mkHop (machine true) (addr 5) (addr 6) (repeat 0%N 64); mkHop (machine false) (addr 6) (addr 7) (repeat 9%N 40)] in
  ok_data_header h /\ Forall (good_hop (length (enc_frame true (enc_data h [7; 8]%N)))) hops /\
  pass_along true hops (enc_frame true (enc_data h [7; 8]%N))
  = Ok (enc_frame true (enc_data (mkDH Dt_QoSData 3 0x2c01 (addr 7) (addr 6) (addr 3) 0x3012 (Some (addr 4)) (Some [5; 0]%N) None) [7; 8]%N)).
Proof.
  cbv zeta. split; [repeat split; repeat constructor|]. split; [|vm_compute; reflexivity].
  repeat apply Forall_cons; try apply Forall_nil; (split; [split; [reflexivity|repeat constructor]|]); (split; [split; [reflexivity|repeat constructor]|]);
    apply Nat.leb_le; vm_compute; reflexivity.
Qed.

(** ** Access points *)
(** An access point that rebuilds any frame it accepts from a station (no A-MSDU) with the builder, giving the destination last, sends a frame that
    tells every receiver the same source, destination and BSSID (Table 9-30: in a frame to the DS the second, third and first address),
    and the same payload. *)
Theorem C77_access_point : forall (cfg : Cfg) fcs received h body buffer, wf_bytes received -> pread (rd_data fcs) received 0 = Ok (h, Some body) ->
  N.testbit (dh_flags h) 0 = true -> N.testbit (dh_flags h) 1 = false -> std_amsdu h = false ->
  24 + length body + (if fcs then 4 else 0) + slack <= length buffer ->
  exists frame, rebuild cfg fcs to_station buffer received = Some (Ok frame) /\ arrives fcs frame (dh_a2 h) (dh_a3 h) (dh_a1 h) body.
Proof. exact access_point_delivers. Qed.
Print Assumptions C77_access_point.
(** With the order of calls shown in the builder's documentation the same frame always tells the BSSID as source and the source as BSSID. *)
Theorem C77_documented_order_refuted : forall (cfg : Cfg) fcs received h body buffer, wf_bytes received -> pread (rd_data fcs) received 0 = Ok (h, Some body) ->
  N.testbit (dh_flags h) 0 = true -> N.testbit (dh_flags h) 1 = false -> std_amsdu h = false ->
  24 + length body + (if fcs then 4 else 0) + slack <= length buffer ->
  exists frame, rebuild cfg fcs to_station_documented buffer received = Some (Ok frame) /\ arrives fcs frame (dh_a1 h) (dh_a3 h) (dh_a2 h) body.
Proof. exact access_point_exchanges. Qed.
Print Assumptions C77_documented_order_refuted.
(** a QoS frame from a station *)
Example C77_access_point_ex (cfg : Cfg) : let received := [136; 1; 0; 0; 1; 1; 1; 1; 1; 1; 2; 2; 2; 2; 2; 2; 3; 3; 3; 3; 3; 3; 16; 0; 5; 0; 9; 8; 7]%N in
  exists h, pread (rd_data false) received 0 = Ok (h, Some [9; 8; 7]%N) /\ N.testbit (dh_flags h) 0 = true /\ N.testbit (dh_flags h) 1 = false /\ std_amsdu h = false /\
  rebuild cfg false to_station (repeat 0%N 28) received
  = Some (Ok [8; 2; 0; 0; 3; 3; 3; 3; 3; 3; 1; 1; 1; 1; 1; 1; 2; 2; 2; 2; 2; 2; 0; 0; 9; 8; 7]%N).
Proof. destruct cfg as [[] [] []]; eexists; (split; [vm_compute; reflexivity|]); (split; [reflexivity|]); (split; [reflexivity|]); (split; [reflexivity|]); vm_compute; reflexivity. Qed.

(** ** The whole way *)
(** A station sends to its access point, which sends over any number of hops to another access point, which sends to the station the frame is
    for. Whatever the machines: the frame arrives, and tells who sent it and for whom it is. *)
Theorem C77_whole_way : forall fcs cfg0 cfg1 cfg2 hops s d b1 next b2 body buffer0 buffer1 buffer2,
  address s -> address d -> address b1 -> address next -> address b2 -> wf_bytes body ->
  35 + length body <= length buffer0 -> 35 + length body <= length buffer1 -> 35 + length body <= length buffer2 ->
  Forall (fun k => address (hop_me k) /\ address (hop_next k) /\ 35 + length body <= length (hop_buffer k)) hops ->
  exists f1 f2 f3 f4,
    option_map (fun x => send cfg0 fcs x buffer0) (built (to_access_point s d b1 body)) = Some (Ok f1) /\
    rebuild cfg1 fcs (to_distribution b1 next) buffer1 f1 = Some (Ok f2) /\
    pass_along fcs hops f2 = Ok f3 /\
    rebuild cfg2 fcs (fun source destination _ => to_station source destination b2) buffer2 f3 = Some (Ok f4) /\
    arrives fcs f4 s d b2 body.
Proof. exact whole_way. Qed.
Print Assumptions C77_whole_way.
Example C77_whole_way_ex (cfg : Cfg) : let hops := [mkHop cfg (addr 5) (addr 6) (repeat 0%N 64); mkHop cfg (addr 6) (addr 7) (repeat 0%N 64)] in
  address (addr 1) /\ Forall (fun k => address (hop_me k) /\ address (hop_next k) /\ 35 + 3 <= length (hop_buffer k)) hops /\
  exists f1 f2 f3, option_map (fun x => send cfg true x (repeat 0%N 64)) (built (to_access_point (addr 1) (addr 9) (addr 2) [7; 8; 9]%N)) = Some (Ok f1) /\
    rebuild cfg true (to_distribution (addr 2) (addr 5)) (repeat 0%N 64) f1 = Some (Ok f2) /\ pass_along true hops f2 = Ok f3 /\
    rebuild cfg true (fun source destination _ => to_station source destination (addr 7)) (repeat 0%N 64) f3
    = Some (Ok (enc_frame true ([8; 2; 0; 0] ++ addr 9 ++ addr 7 ++ addr 1 ++ [0; 0; 7; 8; 9])%N)).
Proof.
  cbv zeta. split; [split; [reflexivity|repeat constructor]|]. split.
  { repeat apply Forall_cons; try apply Forall_nil; (split; [split; [reflexivity|repeat constructor]|]); (split; [split; [reflexivity|repeat constructor]|]);
    apply Nat.leb_le; vm_compute; reflexivity. }
  destruct cfg as [[] [] []]; do 3 eexists; (split; [vm_compute; reflexivity|]); (split; [vm_compute; reflexivity|]); (split; [vm_compute; reflexivity|]); vm_compute; reflexivity.
Qed.
