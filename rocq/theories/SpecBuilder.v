(** What a chain of builder calls asks for, read off the calls alone. *)
From Verif Require Import Base Enums Common Mgmt SpecMgmt Data SpecData Builder.

(** ** Selections *)
Definition asks (p : Call -> bool) (cs : list Call) : bool := existsb p cs.
Definition asks_to_ds : list Call -> bool := asks (fun c => match c with To_ds | To_and_from_ds => true | _ => false end).
Definition asks_from_ds : list Call -> bool := asks (fun c => match c with From_ds | To_and_from_ds => true | _ => false end).
Definition asks_amsdu : list Call -> bool := asks (fun c => match c with Payload PT_Amsdu _ | Payload_amsdu _ => true | _ => false end).
Definition asks_flag (f : Call) : list Call -> bool :=
  asks (fun c => match f, c with
                 | More_fragments, More_fragments | Retry, Retry | Power_management, Power_management
                 | More_data, More_data | Protected, Protected | Order, Order => true | _, _ => false end).
(** the flags byte, 9.2.4.1 *)
Definition flags_number (to from frag retry pm more prot ord : bool) : N :=
  N.b2n to + 2 * N.b2n from + 4 * N.b2n frag + 8 * N.b2n retry + 16 * N.b2n pm + 32 * N.b2n more + 64 * N.b2n prot + 128 * N.b2n ord.
Definition asked_flags (cs : list Call) : N :=
  flags_number (asks_to_ds cs) (asks_from_ds cs) (asks_flag More_fragments cs) (asks_flag Retry cs)
    (asks_flag Power_management cs) (asks_flag More_data cs) (asks_flag Protected cs) (asks_flag Order cs).
Definition category_of (c : Call) : option DataFrameSubtype :=
  match c with
  | Category_data => Some Dt_Data | Category_data_null => Some Dt_Null
  | Category_qos => Some Dt_QoSData | Category_qos_null => Some Dt_QoSNull
  | _ => None
  end.
Definition payload_of (c : Call) : option Container :=
  match c with Payload _ p | Payload_amsdu p => Some p | _ => None end.
(** the last of the values given *)
Definition last_of {A} (f : Call -> option A) (cs : list Call) : option A :=
  fold_left (fun o c => match f c with Some a => Some a | None => o end) cs None.

(** ** Addresses *)
Inductive Role := Receiver | Transmitter | Destination | Source | BSS.
Definition address_call (c : Call) : option (Role * bytes) :=
  match c with
  | Receiver_address a => Some (Receiver, a) | Transmitter_address a => Some (Transmitter, a)
  | Destination_address a => Some (Destination, a) | Source_address a => Some (Source, a) | Bssid a => Some (BSS, a)
  | _ => None
  end.
(** Table 9-30: the address fields an address with some role belongs in *)
Definition places (to from amsdu : bool) (r : Role) : list AddressField :=
  match r with
  | Receiver => [A1]
  | Transmitter => [A2]
  | Destination => match std_da to from amsdu with Some f => [f] | None => [] end
  | Source => match std_sa to from amsdu with Some f => [f] | None => [] end
  | BSS => match to, from, amsdu with
           | false, false, _ => [A3]
           | false, true, false => [A2]
           | false, true, true => [A2; A3]
           | true, false, false => [A1]
           | true, false, true => [A1; A3]
           | true, true, false => []
           | true, true, true => [A3; A4]
           end
  end.
Definition field_eqb (f g : AddressField) : bool :=
  match f, g with A1, A1 | A2, A2 | A3, A3 | A4, A4 => true | _, _ => false end.
(** the address some call supplies for a field *)
Definition supplies (to from amsdu : bool) (f : AddressField) (c : Call) : option bytes :=
  match address_call c with
  | Some (r, a) => if existsb (field_eqb f) (places to from amsdu r) then Some a else None
  | None => None
  end.
(** the address that ought to be in field [f] *)
Definition asked_field (f : AddressField) (cs : list Call) : option bytes :=
  last_of (supplies (asks_to_ds cs) (asks_from_ds cs) (asks_amsdu cs) f) cs.
(** The chains that are not affected by the bug in [from_ds().destination_address()]: for frames from the
    DS, source and BSSID are not given after the destination. *)
Definition destination_last (cs : list Call) : Prop :=
  asks_from_ds cs = true -> asks_to_ds cs = false ->
  forall before a after c, cs = before ++ Destination_address a :: after -> In c after ->
  match c with Source_address _ | Bssid _ => False | _ => True end.
(** no two calls supply different addresses for one field *)
Definition consistent (cs : list Call) : Prop :=
  forall f c1 c2 a1 a2, In c1 cs -> In c2 cs ->
  supplies (asks_to_ds cs) (asks_from_ds cs) (asks_amsdu cs) f c1 = Some a1 ->
  supplies (asks_to_ds cs) (asks_from_ds cs) (asks_amsdu cs) f c2 = Some a2 -> a1 = a2.

(** ** What a frame reports *)
Definition reported (r : Role) (h : DataHeader) : option bytes :=
  match r with
  | Receiver => Some (receiver_address h) | Transmitter => Some (transmitter_address h)
  | Destination => destination_address h | Source => source_address h | BSS => bssid h
  end.
(** a four address frame has its fourth address: a source, or the BSSID of an A-MSDU *)
Definition fourth_given (cs : list Call) : Prop :=
  exists c a, In c cs /\ supplies true true (asks_amsdu cs) A4 c = Some a.
(** all addresses have six bytes *)
Definition good_addresses (cs : list Call) : Prop := forall c r a, In c cs -> address_call c = Some (r, a) -> address a.

(** ** What the builder really does *)
(** In frames from the DS only, the calls behind a destination are taken as if the frame were from no DS. *)
Definition is_destination (c : Call) : bool := match c with Destination_address _ => true | _ => false end.
Definition really_supplies (to from amsdu : bool) (f : AddressField) (state : option bytes * bool) (c : Call) : option bytes * bool :=
  let '(value, destination_seen) := state in
  (match supplies to (from && (to || negb destination_seen)) amsdu f c with Some a => Some a | None => value end,
   destination_seen || is_destination c).
Definition real_field (f : AddressField) (cs : list Call) : option bytes :=
  fst (fold_left (really_supplies (asks_to_ds cs) (asks_from_ds cs) (asks_amsdu cs) f) cs (None, false)).
