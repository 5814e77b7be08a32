(** Senders that pack messages into A-MSDUs or send them one by one, and a receiver that unpacks them. *)
From Verif Require Import Base SpecBase Enums Common Elements SpecElementTypes Mgmt SpecMgmt CryptoHeader Amsdu Data SpecData Generic SpecGeneric SpecNoise.

(** a message: destination, source and content, [mkSub da sa bytes] *)
Notation Message := (AMSDUSubframe bytes).
(** a packet, with the buffer it is written into *)
Inductive Packet :=
| Alone (h : DataHeader) (m : Message) (buffer : bytes)             (** one message in a data frame, its addresses in the header *)
| Together (h : DataHeader) (ms : list Message) (buffer : bytes).   (** an A-MSDU *)
Definition inside (p : Packet) : list Message := match p with Alone _ m _ => [m] | Together _ ms _ => ms end.

(** the body of an A-MSDU as the standard has it: big endian lengths, padding (of zeros) between the subframes only *)
Fixpoint standard_amsdu (ms : list Message) : bytes :=
  match ms with
  | [] => []
  | [m] => enc_sub_std m
  | m :: ms => enc_sub_std m ++ repeat 0%N (pad_length (length (enc_sub_std m))) ++ standard_amsdu ms
  end.

Section Aggregate.
Context {cfg : Cfg}.
(** Headers of data frames with payload that are not protected; the A-MSDU bit as it should be; the addresses of a single message are those the standard
    has in the header. *)
Definition unprotected (h : DataHeader) : Prop := ok_data_header h /\ N.testbit (dh_flags h) 6 = false /\ std_has_payload (subtype_number h) = true.
Definition ok_packet (p : Packet) : Prop :=
  match p with
  | Alone h m buffer =>
    let to := N.testbit (dh_flags h) 0 in let from := N.testbit (dh_flags h) 1 in
    unprotected h /\ std_amsdu h = false /\ role (std_da to from false) h = Some (sf_da m) /\ role (std_sa to from false) h = Some (sf_sa m) /\
    wf_bytes (sf_payload m) /\ end_ok (sf_payload m) /\ length (enc_frame true (enc_data h (sf_payload m))) + slack <= length buffer
  | Together h ms buffer =>
    unprotected h /\ std_amsdu h = true /\ ms <> [] /\ Forall ok_sub ms /\ wf_bytes buffer /\ dh_length h + padded_length ms + 4 + slack <= length buffer
  end.
Definition packet_frame (p : Packet) : Res serr bytes :=
  match p with
  | Alone h m buffer => '(b, n) <- wr_data (h, Some (c_bytes (sf_payload m))) true buffer ;; Ok (firstn n b)
  | Together h ms buffer =>
    '(b, n) <- wr_data (h, Some (c_amsdu (map (fun m => mkSub (sf_da m) (sf_sa m) (c_bytes (sf_payload m))) ms))) true buffer ;; Ok (firstn n b)
  end.
(** ** The receiver *)
(** the block of its arm for data frames *)
Definition unpack (d : DataFrame bytes) : Res serr (list Message) :=
  o <- potentially_wrapped_payload d None ;;
  match o with
  | Some (Unwrapped _ (Pl_Single bs)) =>
    match destination_address (fst d), source_address (fst d) with Some da, Some sa => Ok [mkSub da sa bs] | _, _ => Ok [] end
  | Some (Unwrapped _ (Pl_AMSDU (Some bs))) => amsdu_items bs
  | _ => Ok []
  end.
(** whatever other arms there are *)
Definition unpacks (l : list (nat * Arm (Res serr (list Message)))) : Prop := typed_arms l /\ In (12, mkArm _ _ data_kind rd_data unpack) l.
Fixpoint gather (rs : list (Res serr (list Message))) : Res serr (list Message) :=
  match rs with [] => Ok [] | r :: rs => ms <- r ;; rest <- gather rs ;; Ok (ms ++ rest) end.
Definition deliver (l : list (nat * Arm (Res serr (list Message)))) (air : list bytes) : Res serr (list Message) :=
  rs <- station (map snd l) air ;; gather rs.
(** ** Which histories: [due] is what the undamaged frames carry. *)
Inductive traffic (l : list (nat * Arm (Res serr (list Message)))) : list bytes -> list Message -> Prop :=
| quiet : traffic l [] []
| packet_heard : forall p f air due, ok_packet p -> packet_frame p = Ok f -> traffic l air due -> traffic l (f :: air) (inside p ++ due)
| packet_damaged : forall p f b air due, ok_packet p -> packet_frame p = Ok f -> damaged f b -> traffic l air due -> traffic l (b :: air) due
| other_heard : forall f air due, sent l f (Ok []) -> traffic l air due -> traffic l (f :: air) due
| other_damaged : forall f b air due, sent l f (Ok []) -> damaged f b -> traffic l air due -> traffic l (b :: air) due.
End Aggregate.
