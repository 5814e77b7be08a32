(** C31, C32: the data frame builder. [built cs = Some (h, p)] says that the chain of calls [cs]
    type-checks and yields a frame with header [h] and payload [p]. SpecBuilder.v says what a chain asks for. *)
From Verif Require Import Base SpecBase Enums Common Mgmt SpecMgmt MgmtFacts5 Data SpecData Builder SpecBuilder BuilderFacts BuilderFacts2 BuilderFacts3.

(** ** C31: the frame is the one asked for *)
(** Every address field holds the last address supplied for it. The full claim has no [destination_last]. *)
Theorem C31_fields_partial : forall cs h p, built cs = Some (h, p) -> destination_last cs -> forall f, field f h = asked_field f cs.
Proof. exact built_fields. Qed.
Print Assumptions C31_fields_partial.
(** If no two calls contradict each other, every role reports the address supplied for it; except the
    BSSID of an A-MSDU between two access points. *)
Theorem C31_roles_partial : forall cs h p c r a, built cs = Some (h, p) -> destination_last cs -> consistent cs ->
  In c cs -> address_call c = Some (r, a) -> (r = BSS -> asks_to_ds cs && asks_from_ds cs = false) -> reported r h = Some a.
Proof. exact built_roles. Qed.
Print Assumptions C31_roles_partial.
(** Flags, subtype and payload, for every chain *)
Theorem C31_selections : forall cs h p, built cs = Some (h, p) ->
  dh_flags h = asked_flags cs /\ Some (dh_subtype h) = last_of category_of cs /\ p = last_of payload_of cs /\
  dh_duration h = 0%N /\ dh_seq h = 0%N.
Proof. exact built_rest. Qed.
Print Assumptions C31_selections.
(** What every chain puts into the address fields: in frames from the DS only, the calls behind a destination are taken as if the
    frame were from no DS. *)
Theorem C31_fields : forall cs h p, built cs = Some (h, p) -> forall f, field f h = real_field f cs.
Proof. exact built_real. Qed.
Print Assumptions C31_fields.
(** Such frames always report the source as BSSID and the BSSID as source. *)
Theorem C31_from_ds_exchanged : forall before a after h p source bssid, let cs := before ++ Destination_address a :: after in
  built cs = Some (h, p) -> asks_from_ds cs = true -> asks_to_ds cs = false ->
  (forall c, In c before -> match c with Source_address _ | Bssid _ => False | _ => True end) ->
  (forall c, In c (before ++ after) -> match c with Transmitter_address _ => False | _ => True end) ->
  last_of (fun c => match c with Source_address x => Some x | _ => None end) after = Some source ->
  last_of (fun c => match c with Bssid x => Some x | _ => None end) after = Some bssid ->
  reported BSS h = Some source /\ reported Source h = Some bssid.
Proof. exact built_exchanged. Qed.
Print Assumptions C31_from_ds_exchanged.
Example C31_exchanged_ex : exists h p, let before := [From_ds; Category_data; Payload PT_Slice slice8] in let after := [Retry; Source_address (addr 2); Bssid (addr 3)] in
  let cs := before ++ Destination_address (addr 1) :: after in
  built cs = Some (h, p) /\ asks_from_ds cs = true /\ asks_to_ds cs = false /\ real_field A2 cs = Some (addr 2) /\ real_field A3 cs = Some (addr 3).
Proof. do 2 eexists. repeat split. Qed.
(** The chain of the builder's documentation, for a frame from the DS: source and BSSID are exchanged. *)
Theorem C31_from_ds_refuted : exists h p, built doc_chain = Some (h, p) /\ consistent doc_chain /\ ~ destination_last doc_chain /\
  reported Source h = Some (addr 3) /\ reported BSS h = Some (addr 2).
Proof. exact from_ds_swapped. Qed.
Print Assumptions C31_from_ds_refuted.
Theorem C31_both_amsdu_refuted : exists h p, built amsdu_chain = Some (h, p) /\ consistent amsdu_chain /\ destination_last amsdu_chain /\
  In (Bssid (addr 3)) amsdu_chain /\ reported BSS h = Some (addr 2) /\ std_amsdu h = false.
Proof. exact both_amsdu. Qed.
Print Assumptions C31_both_amsdu_refuted.
Example C31_ex : let cs := [Retry; From_ds; Category_data; Payload PT_Slice slice8; Source_address (addr 2); Protected; Bssid (addr 3);
    Destination_address (addr 1)] in
  exists h p, built cs = Some (h, p) /\ dh_flags h = 0x4a%N /\ reported Source h = Some (addr 2) /\ reported BSS h = Some (addr 3) /\
  reported Destination h = Some (addr 1) /\ destination_last cs /\ consistent cs.
Proof.
  do 2 eexists. repeat (split; [reflexivity|]). split.
  - intros _ _ before a after c E I. do 8 (destruct before as [|? before]; [try discriminate E; injection E as <- <-; contradiction I|injection E as _ E]).
    destruct before; discriminate E.
  - intros f c1 c2 a1 a2 I1 I2. cbn [In] in I1, I2.
    repeat (destruct I1 as [<-|I1]); try contradiction I1; try (destruct f; discriminate);
      repeat (destruct I2 as [<-|I2]); try contradiction I2; destruct f; cbn; congruence.
Qed.
(** calls the types do not admit *)
Example C31_types : built [To_ds; Category_data; Bssid (addr 1)] = None /\ built [To_ds; From_ds] = None /\
  built [To_ds; Category_qos; Payload_amsdu slice8; Destination_address (addr 1)] = None.
Proof. repeat split. Qed.

(** ** C32: built frames can be written and read back *)
(** Data frames with a payload and null data frames without QoS, without the order flag, and with a fourth address if both
    DS flags are set. *)
Theorem C32_partial : forall (cfg : Cfg) cs h p body fcs, built cs = Some (h, p) -> good_addresses cs -> asks_flag Order cs = false ->
  (asks_to_ds cs && asks_from_ds cs = true -> fourth_given cs) ->
  match last_of category_of cs with
  | Some Dt_Data => exists c, last_of payload_of cs = Some c /\ wf_bytes body /\ Writes (c_write c) body
  | Some Dt_Null => body = []
  | _ => False
  end ->
  let frame := enc_frame fcs (enc_data h body) in
  Writes (wr_data (h, p) fcs) frame /\
  (native_le = true -> pread (rd_data fcs) frame 0 = Ok (h, match p with Some _ => Some body | None => None end)).
Proof. exact @built_round_trip. Qed.
Print Assumptions C32_partial.
(** No reader returns any other built frame, whatever was received: they lack fields their frame control field announces. *)
Theorem C32_others_never : forall (cfg : Cfg) cs h p fcs received q, built cs = Some (h, p) -> pread (rd_data fcs) received 0 = Ok (h, q) ->
  asks_flag Order cs = false /\ (asks_to_ds cs && asks_from_ds cs = true -> fourth_given cs) /\
  (last_of category_of cs = Some Dt_Data \/ last_of category_of cs = Some Dt_Null).
Proof. exact @built_readable. Qed.
Print Assumptions C32_others_never.
(** The other frames are written, but what is read back has another payload. *)
Theorem C32_qos_refuted : forall (cfg : Cfg), native_le = true -> lost [Neither_to_nor_from_ds; Category_qos; Payload PT_Slice slice8;
  Destination_address (addr 1); Source_address (addr 2); Bssid (addr 3)].
Proof. exact @qos_lost. Qed.
Print Assumptions C32_qos_refuted.
Theorem C32_order_refuted : forall (cfg : Cfg), native_le = true -> lost [Neither_to_nor_from_ds; Category_data; Payload PT_Slice slice8;
  Destination_address (addr 1); Source_address (addr 2); Bssid (addr 3); Order].
Proof. exact @order_lost. Qed.
Print Assumptions C32_order_refuted.
Theorem C32_fourth_refuted : forall (cfg : Cfg), native_le = true -> lost [To_and_from_ds; Category_data; Payload PT_Slice slice8;
  Receiver_address (addr 1); Transmitter_address (addr 2); Destination_address (addr 3)].
Proof. exact @both_lost. Qed.
Print Assumptions C32_fourth_refuted.
Example C32_ex (cfg : Cfg) : let cs := [To_and_from_ds; Category_data; Payload PT_Slice slice8; Receiver_address (addr 1);
    Transmitter_address (addr 2); Destination_address (addr 3); Source_address (addr 4)] in
  exists h p, built cs = Some (h, p) /\ good_addresses cs /\ asks_flag Order cs = false /\ fourth_given cs /\
  last_of category_of cs = Some Dt_Data /\ Writes (c_write slice8) [1; 2; 3; 4; 5; 6; 7; 8]%N.
Proof.
  do 2 eexists. split; [reflexivity|]. split; [good|]. split; [reflexivity|]. split; [exists (Source_address (addr 4)), (addr 4); split; [do 6 right; now left|reflexivity]|].
  split; [reflexivity|]. apply MgmtFacts2.c_bytes_T.
Qed.
