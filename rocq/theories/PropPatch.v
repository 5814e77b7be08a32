(** C83: changing fields of a frame in place. *)
From Verif Require Import Base SpecBase Bits Layouts Enums Common SpecCommon SpecElementTypes Mgmt SpecMgmt MgmtFacts5 Data SpecData DataFacts5 SpecPatch PatchFacts PatchFacts2.

(** ** C83 *)
(** Receiving: storing a new value at the standard's offset and then reading gives what reading gives, with that field changed and nothing else, for any body
    type, any bytes and any number of changes; errors stay the same errors. *)
Theorem C83_mgmt_received : forall (cfg : Cfg) (W R : Type) (t : BodyType W R) cs mpdu (fcs : bool), wf_bytes mpdu -> 24 <= length mpdu ->
  Forall change_ok cs -> Forall (fun c => same_mgmt_fields c (nth 1 mpdu 0%N)) cs ->
  rd_mgmt t fcs (enc_frame fcs (change_frames cs mpdu)) =
  outcome_map (fun '((h, r), n) => ((change_mgmts cs h, r), n)) (rd_mgmt t fcs (enc_frame fcs mpdu)).
Proof. exact @mgmts_read. Qed.
Print Assumptions C83_mgmt_received.
Theorem C83_data_received : forall (cfg : Cfg) cs mpdu (fcs : bool), wf_bytes mpdu -> 24 <= length mpdu ->
  Forall change_ok cs -> Forall (fun c => same_data_fields c (nth 1 mpdu 0%N)) cs -> native_le = true \/ Forall (fun c => ~ is_number c) cs ->
  rd_data fcs (enc_frame fcs (change_frames cs mpdu)) =
  outcome_map (fun '((h, p), n) => ((change_datas cs h, p), n)) (rd_data fcs (enc_frame fcs mpdu)).
Proof. exact @datas_read. Qed.
Print Assumptions C83_data_received.
(** Sending: writing the changed value is the same as writing the value and changing the bytes (and the frame check sequence), in any buffer, for any body that
    is written after the header; a write that is refused stays refused. *)
Theorem C83_mgmt_sent : forall (cfg : Cfg) (W R : Type) (t : BodyType W R) c h w (fcs : bool) buf, ok_mgmt_header h -> change_ok c -> same_mgmt_fields c (mh_flags h) ->
  canonical_frame_type (FT_Management (bt_subtype t)) ->
  wr_mgmt t (change_mgmt c h) w fcs buf = outcome_map (change_sent fcs c) (wr_mgmt t h w fcs buf).
Proof. exact @mgmt_written. Qed.
Print Assumptions C83_mgmt_sent.
Theorem C83_data_sent : forall (cfg : Cfg) c h p (fcs : bool) buf, ok_data_header h -> change_ok c -> same_data_fields c (dh_flags h) ->
  wr_data (change_data c h, p) fcs buf = outcome_map (change_sent fcs c) (wr_data (h, p) fcs buf).
Proof. exact @data_written. Qed.
Print Assumptions C83_data_sent.
(** The timestamp of beacons and probe responses, which the hardware stores in the frame when it is sent. *)
Theorem C83_time_received : forall (cfg : Cfg) s time mpdu (fcs : bool), wf_bytes mpdu -> u64 time -> (if N.testbit (nth 1 mpdu 0%N) 7 then 36 else 32) <= length mpdu ->
  rd_mgmt (beacon_like s) fcs (enc_frame fcs (change_time time mpdu)) =
  outcome_map (fun '((h, r), n) => ((h, set_time time r), n)) (rd_mgmt (beacon_like s) fcs (enc_frame fcs mpdu)).
Proof. exact @time_read. Qed.
Print Assumptions C83_time_received.
Theorem C83_time_sent : forall (cfg : Cfg) s h w time (fcs : bool) buf, ok_mgmt_header h -> canonical_frame_type (FT_Management s) ->
  wr_mgmt (beacon_like s) h (set_time time w) fcs buf = outcome_map (revise fcs (change_time time)) (wr_mgmt (beacon_like s) h w fcs buf).
Proof. exact @time_written. Qed.
Print Assumptions C83_time_sent.
(** On big endian machines a number is read back in the other order. *)
Theorem C83_big_endian_refuted : forall (cfg : Cfg), native_le = false -> exists mpdu h p n h', wf_bytes mpdu /\ rd_data false mpdu = Ok ((h, p), n) /\
  rd_data false (change_frame (SetSequence 0x10) mpdu) = Ok ((h', p), n) /\ dh_seq h' = 0x1000%N.
Proof. exact @data_patch_big_endian. Qed.
Print Assumptions C83_big_endian_refuted.
(** A retry of a beacon: the retry flag, a sequence number and the time are stored in the frame. *)
Example C83_ex (cfg : Cfg) :
  let h := mkMH 0 0 (repeat 255%N 6) (addr 1) (addr 1) 0x20 None in let w := mkBeacon 5 100 1 (c_bytes [0; 1; 65]%N) in
  let cs := [SetFlags 8; SetSequence 0x30] in
  ok_mgmt_header h /\ Forall change_ok cs /\ Forall (fun c => same_mgmt_fields c (mh_flags h)) cs /\ canonical_frame_type (FT_Management (bt_subtype Beacon)) /\
  exists frame, wr_mgmt Beacon h w false (repeat 0%N 39) = Ok (frame, 39) /\ wf_bytes frame /\
    pread (rd_mgmt Beacon false) (change_time 77 (change_frames cs frame)) 0 = Ok (mkMH 8 0 (repeat 255%N 6) (addr 1) (addr 1) 0x30 None, mkBeacon 77 100 1 [0; 1; 65])%N.
Proof.
  cbv zeta. split; [repeat split; try reflexivity; repeat constructor|]. split; [repeat constructor|]. split; [repeat constructor|]. split; [split; reflexivity|].
  eexists. split; [destruct cfg as [[] [] []]; vm_compute; reflexivity|]. split; [repeat constructor|]. destruct cfg as [[] [] []]; vm_compute; reflexivity.
Qed.
