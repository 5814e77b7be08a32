(** A receiver with frame check sequence behind a channel that damages frames. *)
From Verif Require Import Base SpecBase Crc SpecFcs Enums Common Elements SpecElements SpecElementTypes Mgmt SpecMgmt Data SpecData Generic SpecGeneric
  SpecPortable SpecDelivery.

(** ** Damage *)
(** so few changed bits in a frame of [n] bytes that the frame check sequence reveals them wherever they are *)
Definition few (flips : list nat) (n : N) : Prop :=
  length flips <= 2 /\ (n < 2 ^ 29)%N \/ length flips <= 3 /\ (n <= 11454)%N \/ length flips <= 4 /\ (n <= 375)%N \/ length flips <= 5 /\ (n <= 37)%N.
(** [received] is [sent] (both byte strings) with bits changed: any within 32 consecutive ones, or few anywhere *)
Definition damaged (sent received : bytes) : Prop :=
  wf_bytes sent /\ wf_bytes received /\ length sent = length received /\ sent <> received /\
  ((exists k, forall i, i < k \/ k + 32 <= i -> frame_bit sent i = frame_bit received i) \/
   (exists flips, few flips (N.of_nat (length sent)) /\ forall i, ~ In i flips -> frame_bit sent i = frame_bit received i)).

Section Spec.
Context {cfg : Cfg}.
(** ** What is sent *)
(** the management frame types: position in [kinds], subtype, admissible bodies, fixed part, container, what the reader makes of a body, and whether the
    container may be empty in any case *)
Inductive mgmt_type : forall W R, BodyType W R -> nat -> N -> (W -> Prop) -> (W -> bytes) -> (W -> Container) -> (W -> bytes -> R) -> Prop -> Prop :=
| beacon_type : mgmt_type _ _ Beacon 0 8 ok_beacon fixed_beacon bb_elements with_beacon False
| probe_response_type : mgmt_type _ _ ProbeResponse 1 5 ok_beacon fixed_beacon bb_elements with_beacon False
| probe_request_type : mgmt_type _ _ ProbeRequest 2 4 ok_any fixed_probe pq_elements with_probe False
| authentication_type : mgmt_type _ _ Authentication 3 11 ok_auth fixed_auth au_elements with_auth False
| association_request_type : mgmt_type _ _ AssociationRequest 4 0 ok_assoc_req fixed_assoc_req aq_elements with_assoc_req False
| association_response_type : mgmt_type _ _ AssociationResponse 5 1 ok_assoc_resp fixed_assoc_resp ar_elements with_assoc_resp False
| deauthentication_type : mgmt_type _ _ Deauthentication 6 12 ok_reason fixed_reason rb_elements with_reason False
| disassociation_type : mgmt_type _ _ Disassociation 7 10 ok_reason fixed_reason rb_elements with_reason False
| vendor_action_type : mgmt_type _ _ RawVendorSpecificAction 8 13 ok_vendor fixed_vendor va_payload with_vendor True
| peering_open_type : mgmt_type _ _ MeshPeeringOpen 9 13 ok_open fixed_open mo_elements with_open False
| peering_confirm_type : mgmt_type _ _ MeshPeeringConfirm 10 13 ok_confirm fixed_confirm mc_elements with_confirm False
| peering_close_type : mgmt_type _ _ MeshPeeringClose 11 13 ok_any fixed_close ml_elements with_close False.
(** [sent l f a]: somebody wrote the frame [f], with frame check sequence, into a large enough buffer; [a] is the result of the block of its type in [l]
    for the header and the content written (on big endian machines data frames are read with the bytes of two header fields exchanged) *)
Inductive sent {A} (l : list (nat * Arm A)) : bytes -> A -> Prop :=
| sent_mgmt : forall W R (t : BodyType W R) i subtype ok fixed cont conv empty_ok block h w es buf buf' n,
    mgmt_type W R t i subtype ok fixed cont conv empty_ok -> In (i, mkArm _ _ (mgmt_kind t) (rd_mgmt t) block) l ->
    ok_mgmt_header h -> ok w -> wf_bytes es -> Writes (c_write (cont w)) es -> empty_ok \/ end_ok es ->
    length (enc_frame true (enc_mgmt subtype h (fixed w ++ es))) + slack <= length buf ->
    wr_mgmt t h w true buf = Ok (buf', n) -> sent l (firstn n buf') (block (h, conv w es))
| sent_data : forall block h p body buf buf' n,
    In (12, mkArm _ _ data_kind rd_data block) l -> ok_data_header h -> payload_ok h p body ->
    length (enc_frame true (enc_data h body)) + slack <= length buf ->
    wr_data (h, p) true buf = Ok (buf', n) ->
    sent l (firstn n buf') (block (if native_le then h else swapped_header h, match p with Some _ => Some body | None => None end)).

(** ** What is heard *)
(** [channel l air due]: [air] is what arrives, in any order, of frames that somebody sent: copies of them, as often as anybody likes, damaged or not;
    [due] are the results of the blocks for the undamaged ones. *)
Inductive channel {A} (l : list (nat * Arm A)) : list bytes -> list A -> Prop :=
| channel_silent : channel l [] []
| channel_intact : forall f a air due, sent l f a -> channel l air due -> channel l (f :: air) (a :: due)
| channel_damaged : forall f a b air due, sent l f a -> damaged f b -> channel l air due -> channel l (b :: air) due.
(** The receiver dispatches every frame with [match_frames!] (with frame check sequence) and goes on after errors. *)
Fixpoint station {A} (arms : list (Arm A)) (air : list bytes) : Res serr (list A) :=
  match air with
  | [] => Ok []
  | b :: rest =>
    match match_frames b (Some true) arms with
    | Ok a => results <- station arms rest ;; Ok (a :: results)
    | Err _ => station arms rest
    | Panic => Panic
    end
  end.
End Spec.
