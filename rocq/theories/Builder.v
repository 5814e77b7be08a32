(** The typed data frame builder: /repo/src/frames/data_frame/builder.rs, /repo/src/common/type_state.rs.

    The type parameters of the Rust builder become fields of the model's builder; a call that does not
    type-check for a state gives [None]. *)
From Verif Require Import Base Bits Layouts Enums Common Mgmt Data Amsdu.

(** type_state.rs: the marker types for the two DS flags; [DS_Unset] is [()] *)
Inductive DsState := DS_Unset | DS_Neither | DS_To | DS_From | DS_Both.
(** builder.rs:61-64; [Cat_Unset] is [()] *)
Inductive Category := Cat_Unset | Cat_Data | Cat_DataNull | Cat_QoS | Cat_QoSNull.
(** The type of the payload, as far as the impl blocks distinguish it: [()], [Empty], [&[u8]],
    [AMSDUPayload<_>], any other type that can be written *)
Inductive PayloadType := PT_Unit | PT_Empty | PT_Slice | PT_Amsdu | PT_Other.
(** builder.rs:67-85. [b_a4_set] is the type parameter [Address4] ([()] or [MACAddress]); the types of the
    other addresses are determined by whether the field has a value. *)
Record Builder := mkB {
  b_ds : DsState; b_cat : Category; b_type : PayloadType;
  b_a1 : option bytes; b_a2 : option bytes; b_a3 : option bytes; b_a4 : option bytes; b_a4_set : bool;
  b_payload : option Container; b_flags : N
}.
(** The public methods *)
Inductive Call :=
| Neither_to_nor_from_ds | To_ds | From_ds | To_and_from_ds
| Category_data | Category_data_null | Category_qos | Category_qos_null
| Payload (t : PayloadType) (c : Container)
| Payload_amsdu (c : Container)
| Receiver_address (a : bytes) | Transmitter_address (a : bytes)
| Destination_address (a : bytes) | Source_address (a : bytes) | Bssid (a : bytes)
| More_fragments | Retry | Power_management | More_data | Protected | Order.

(** builder.rs:124-134 *)
Definition builder_new : Builder := mkB DS_Unset Cat_Unset PT_Unit None None None None false None 0.

Definition no_addresses (b : Builder) : bool :=
  match b_a1 b, b_a2 b, b_a3 b with None, None, None => negb (b_a4_set b) | _, _, _ => false end.
(** the state is [DataFrameBuilderInner<(), (), (), (), (), (), ()>] *)
Definition is_fresh (b : Builder) : bool :=
  match b_ds b, b_cat b, b_type b with DS_Unset, Cat_Unset, PT_Unit => no_addresses b | _, _, _ => false end.
(** the state is [DataFrameBuilderInner<DS, (), (), (), (), (), ()>] *)
Definition needs_category (b : Builder) : bool :=
  match b_cat b, b_type b with Cat_Unset, PT_Unit => no_addresses b | _, _ => false end.
Definition has_payload_category (c : Category) : bool := match c with Cat_Data | Cat_QoS => true | _ => false end.
Definition has_category (b : Builder) : bool := match b_cat b with Cat_Unset => false | _ => true end.

Definition with_ds (ds : DsState) (flags : N) (b : Builder) : Builder :=
  mkB ds (b_cat b) (b_type b) (b_a1 b) (b_a2 b) (b_a3 b) (b_a4 b) (b_a4_set b) (b_payload b) flags.
Definition with_cat (c : Category) (b : Builder) : Builder :=
  mkB (b_ds b) c (b_type b) (b_a1 b) (b_a2 b) (b_a3 b) (b_a4 b) (b_a4_set b) (b_payload b) (b_flags b).
Definition with_no_payload (c : Category) (t : PayloadType) (b : Builder) : Builder :=
  mkB (b_ds b) c t (b_a1 b) (b_a2 b) (b_a3 b) (b_a4 b) (b_a4_set b) None (b_flags b).
Definition with_payload (t : PayloadType) (p : Container) (b : Builder) : Builder :=
  mkB (b_ds b) (b_cat b) t None None None None false (Some p) (b_flags b).
Definition with_a1 (a : bytes) (b : Builder) : Builder :=
  mkB (b_ds b) (b_cat b) (b_type b) (Some a) (b_a2 b) (b_a3 b) (b_a4 b) (b_a4_set b) (b_payload b) (b_flags b).
Definition with_a2 (a : bytes) (b : Builder) : Builder :=
  mkB (b_ds b) (b_cat b) (b_type b) (b_a1 b) (Some a) (b_a3 b) (b_a4 b) (b_a4_set b) (b_payload b) (b_flags b).
Definition with_a3 (a : bytes) (b : Builder) : Builder :=
  mkB (b_ds b) (b_cat b) (b_type b) (b_a1 b) (b_a2 b) (Some a) (b_a4 b) (b_a4_set b) (b_payload b) (b_flags b).
Definition with_a4 (a : bytes) (b : Builder) : Builder :=
  mkB (b_ds b) (b_cat b) (b_type b) (b_a1 b) (b_a2 b) (b_a3 b) (Some a) true (b_payload b) (b_flags b).
Definition with_flag (name : String.string) (b : Builder) : Builder :=
  mkB (b_ds b) (b_cat b) (b_type b) (b_a1 b) (b_a2 b) (b_a3 b) (b_a4 b) (b_a4_set b) (b_payload b)
      (lsetb FCFFlags_layout name true (b_flags b)).
Local Open Scope string_scope.
(** builder.rs:373-395 [destination_address] of a FromDS builder returns a builder in the state
    NeitherToNorFromDS *)
Definition from_ds_destination (a : bytes) (b : Builder) : Builder :=
  with_a1 a (with_ds DS_Neither (b_flags b) b).

(** One call; [None]: the program does not type-check. *)
Definition call (c : Call) (b : Builder) : option Builder :=
  match c with
  (* builder.rs:135-139 *)
  | Neither_to_nor_from_ds => if is_fresh b then Some (with_ds DS_Neither (b_flags b) b) else None
  (* builder.rs:140-143 *)
  | To_ds => if is_fresh b then Some (with_ds DS_To (lsetb FCFFlags_layout "to_ds" true (b_flags b)) b) else None
  (* builder.rs:144-147 *)
  | From_ds => if is_fresh b then Some (with_ds DS_From (lsetb FCFFlags_layout "from_ds" true (b_flags b)) b) else None
  (* builder.rs:148-153 *)
  | To_and_from_ds =>
    if is_fresh b then Some (with_ds DS_Both (lsetb FCFFlags_layout "from_ds" true (lsetb FCFFlags_layout "to_ds" true (b_flags b))) b)
    else None
  (* builder.rs:156-158 *)
  | Category_data => if needs_category b then Some (with_cat Cat_Data b) else None
  (* builder.rs:159-171 *)
  | Category_data_null => if needs_category b then Some (with_no_payload Cat_DataNull PT_Empty b) else None
  (* builder.rs:172-174 *)
  | Category_qos => if needs_category b then Some (with_cat Cat_QoS b) else None
  (* builder.rs:175-187; the payload type stays [()] *)
  | Category_qos_null => if needs_category b then Some (with_no_payload Cat_QoSNull PT_Unit b) else None
  (* builder.rs:189-206; a payload of type [()] cannot be passed, as that type is not written *)
  | Payload t p =>
    match b_type b, t with
    | PT_Unit, (PT_Empty | PT_Slice | PT_Amsdu | PT_Other) =>
      if has_payload_category (b_cat b) && no_addresses b then Some (with_payload t p b) else None
    | _, _ => None
    end
  (* builder.rs:207-222 *)
  | Payload_amsdu p =>
    match b_type b, b_cat b with
    | PT_Unit, Cat_QoS => if no_addresses b then Some (with_payload PT_Amsdu p b) else None
    | _, _ => None
    end
  (* builder.rs:223-249 *)
  | Receiver_address a => match b_a1 b with None => Some (with_a1 a b) | Some _ => None end
  (* builder.rs:250-276 *)
  | Transmitter_address a => match b_a2 b with None => Some (with_a2 a b) | Some _ => None end
  | Destination_address a =>
    if has_category b then
      match b_ds b, b_type b with
      (* builder.rs:299-320 *)
      | DS_Neither, _ => if b_a4_set b then None else Some (with_a1 a b)
      (* builder.rs:373-395 *)
      | DS_From, _ => if b_a4_set b then None else Some (from_ds_destination a b)
      (* builder.rs:502-516 *)
      | DS_To, PT_Slice => if b_a4_set b then None else Some (with_a3 a b)
      (* builder.rs:595-617 *)
      | DS_Both, PT_Slice => Some (with_a3 a b)
      | _, _ => None
      end
    else None
  | Source_address a =>
    if has_category b then
      match b_ds b, b_type b with
      (* builder.rs:321-342 *)
      | DS_Neither, _ => if b_a4_set b then None else Some (with_a2 a b)
      (* builder.rs:401-414 *)
      | DS_From, PT_Slice => if b_a4_set b then None else Some (with_a3 a b)
      (* builder.rs:483-497 *)
      | DS_To, _ => if b_a4_set b then None else Some (with_a2 a b)
      (* builder.rs:618-640 *)
      | DS_Both, PT_Slice => Some (with_a4 a b)
      | _, _ => None
      end
    else None
  | Bssid a =>
    if has_category b then
      match b_ds b, b_type b with
      (* builder.rs:343-364 *)
      | DS_Neither, _ => if b_a4_set b then None else Some (with_a3 a b)
      (* builder.rs:415-428 *)
      | DS_From, PT_Slice => if b_a4_set b then None else Some (with_a2 a b)
      (* builder.rs:450-472 *)
      | DS_From, PT_Amsdu => if b_a4_set b then None else Some (with_a3 a (with_a2 a b))
      (* builder.rs:517-531 *)
      | DS_To, PT_Slice => if b_a4_set b then None else Some (with_a1 a b)
      (* builder.rs:552-574 *)
      | DS_To, PT_Amsdu => if b_a4_set b then None else Some (with_a3 a (with_a1 a b))
      (* builder.rs:662-684 *)
      | DS_Both, PT_Amsdu => Some (with_a4 a (with_a3 a b))
      | _, _ => None
      end
    else None
  (* builder.rs:689-712 *)
  | More_fragments => Some (with_flag "more_fragments" b)
  | Retry => Some (with_flag "retry" b)
  | Power_management => Some (with_flag "pwr_mgmt" b)
  | More_data => Some (with_flag "more_data" b)
  | Protected => Some (with_flag "protected" b)
  | Order => Some (with_flag "order" b)
  end.
(** A chain of calls *)
Fixpoint calls (cs : list Call) (b : Builder) : option Builder :=
  match cs with
  | [] => Some b
  | c :: cs' => match call c b with Some b' => calls cs' b' | None => None end
  end.
(** builder.rs:47-64 *)
Definition upper_two_bits (c : Category) : N :=
  match c with Cat_Unset => 0 | Cat_Data => 0 | Cat_DataNull => 1 | Cat_QoS => 2 | Cat_QoSNull => 3 end.
(** builder.rs:714-772; both impls of [build]. [()] implements DSField, so no DS state is demanded. *)
Definition build (b : Builder) : option (DataFrame Container) :=
  match b_a1 b, b_a2 b, b_a3 b with
  | Some a1, Some a2, Some a3 =>
    if has_category b then
      Some (mkDH (data_subtype_from_bits (N.shiftl (upper_two_bits (b_cat b)) 2)) (b_flags b) 0 a1 a2 a3 0
                 (if b_a4_set b then b_a4 b else None) None None,
            b_payload b)
    else None
  | _, _, _ => None
  end.
(** [DataFrameBuilder::new().c1().c2()...build()] *)
Definition built (cs : list Call) : option (DataFrame Container) :=
  match calls cs builder_new with Some b => build b | None => None end.
