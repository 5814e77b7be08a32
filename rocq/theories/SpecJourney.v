(** Programs that pass data frames on, and what a frame is after them: stations between two access points of a wireless
    distribution system, and access points that take a frame from the station sending it to the station it is for. *)
From Verif Require Import Base SpecBase Enums Common Crc Mgmt SpecMgmt Data SpecData Builder SpecPortable.

(** ** Programs *)
(** write a frame into a buffer and send the bytes that were written *)
Definition send (cfg : Cfg) (fcs : bool) (d : DataFrame Container) (buffer : bytes) : Res serr bytes :=
  '(buffer, n) <- wr_data d fcs buffer ;; Ok (firstn n buffer).
(** A station on the way: the machine it runs on, its address, the one of the next station, and its buffer *)
Record Hop := mkHop { hop_machine : Cfg; hop_me : bytes; hop_next : bytes; hop_buffer : bytes }.
(** It reads the frame, replaces the first two address fields and sends it. *)
Definition pass_on (fcs : bool) (k : Hop) (frame : bytes) : Res serr bytes :=
  '(h, p) <- @pread (hop_machine k) _ (@rd_data (hop_machine k) fcs) frame 0 ;;
  send (hop_machine k) fcs (set_a2 (hop_me k) (set_a1 (hop_next k) h), option_map c_bytes p) (hop_buffer k).
Fixpoint pass_along (fcs : bool) (hops : list Hop) (frame : bytes) : Res serr bytes :=
  match hops with [] => Ok frame | k :: hops => frame <- pass_on fcs k frame ;; pass_along fcs hops frame end.
(** An access point or a portal: it reads the frame, asks it for source, destination and BSSID, and sends what the builder makes of the
    calls that [chain] says. [None]: the frame tells no source, destination or BSSID or has no payload, or the calls do not type-check. *)
Definition rebuild (cfg : Cfg) (fcs : bool) (chain : bytes -> bytes -> bytes -> bytes -> list Call) (buffer frame : bytes) : option (Res serr bytes) :=
  match pread (rd_data fcs) frame 0 with
  | Ok (h, Some body) =>
    match source_address h, destination_address h, bssid h with
    | Some source, Some destination, Some bss => option_map (fun d => send cfg fcs d buffer) (built (chain source destination bss body))
    | _, _, _ => None
    end
  | _ => None
  end.
(** the calls for a frame to a station; the destination is given last *)
Definition to_station (source destination bss body : bytes) : list Call :=
  [From_ds; Category_data; Payload PT_Slice (c_bytes body); Source_address source; Bssid bss; Destination_address destination].
(** in the order of the builder's documentation *)
Definition to_station_documented (source destination bss body : bytes) : list Call :=
  [From_ds; Category_data; Payload PT_Slice (c_bytes body); Destination_address destination; Source_address source; Bssid bss].
(** from a station to its access point *)
Definition to_access_point (source destination bss body : bytes) : list Call :=
  [To_ds; Category_data; Payload PT_Slice (c_bytes body); Source_address source; Bssid bss; Destination_address destination].
(** from an access point [me] to the next station on the way to another one *)
Definition to_distribution (me next source destination bss body : bytes) : list Call :=
  [To_and_from_ds; Category_data; Payload PT_Slice (c_bytes body); Receiver_address next; Transmitter_address me;
   Destination_address destination; Source_address source].

(** ** What becomes of the frame *)
Definition big_endian (k : Hop) : bool := negb (@native_le (hop_machine k)).
Definition twisted (b : bool) (v : N) : N := if b then swapped v else v.
(** the header behind [hops], of which [k] is the last: the addresses of the last hop, and two numbers that every big endian machine twists *)
Definition header_behind (hops : list Hop) (k : Hop) (h : DataHeader) : DataHeader :=
  let odd := Nat.odd (length (filter big_endian (hops ++ [k]))) in
  mkDH (dh_subtype h) (dh_flags h) (twisted odd (dh_duration h)) (hop_next k) (hop_me k) (dh_a3 h) (twisted odd (dh_seq h)) (dh_a4 h) (dh_qos h) (dh_ht h).
(** the addresses are addresses, and the buffer is large enough for a frame of [n] bytes *)
Definition good_hop (n : nat) (k : Hop) : Prop :=
  address (hop_me k) /\ address (hop_next k) /\ n + @slack (hop_machine k) <= length (hop_buffer k).
(** a frame as its receiver sees it: who it is for, who sent it, in which cell, and the payload *)
Definition arrives (fcs : bool) (frame source destination bss body : bytes) : Prop :=
  forall cfg : Cfg, exists h, pread (rd_data fcs) frame 0 = Ok (h, Some body) /\
    destination_address h = Some destination /\ source_address h = Some source /\ bssid h = Some bss.
