(** From the sender's value to the receiver's block: the frame in the sender's buffer, dispatched with [match_frames!]. *)
From Verif Require Import Base SpecBase Crc Enums Common Elements SpecElements SpecElementTypes Mgmt SpecMgmt Data SpecData Generic SpecGeneric SpecPortable.

Section Spec.
Context {cfg : Cfg}.
(** Any admissible value of the frame type at position [i] of [kinds], written into any buffer with room for it and
    dispatched over any list of arms for different types, runs the block of its own type, on its own header and content.
    The arguments are those of [MgmtRoundTrip]. *)
Definition Delivered {W R} (t : BodyType W R) (i : nat) (subtype : N) (ok : W -> Prop) (fixed : W -> bytes)
    (cont : W -> Container) (conv : W -> bytes -> R) (empty_ok : Prop) : Prop :=
  forall A (l : list (nat * Arm A)) (block : MgmtHeader * R -> A) h w es (fcs : bool) buf,
    typed_arms l -> In (i, mkArm _ _ (mgmt_kind t) (rd_mgmt t) block) l ->
    ok_mgmt_header h -> ok w -> wf_bytes es -> Writes (c_write (cont w)) es -> empty_ok \/ end_ok es ->
    length (enc_frame fcs (enc_mgmt subtype h (fixed w ++ es))) + slack <= length buf ->
    exists buf' n, wr_mgmt t h w fcs buf = Ok (buf', n) /\
      match_frames (firstn n buf') (if fcs then Some true else None) (map snd l) = Ok (block (h, conv w es)).
(** the same for data frames; on big endian machines the block sees the header with the bytes of duration and sequence control exchanged *)
Definition DeliveredData : Prop :=
  forall A (l : list (nat * Arm A)) (block : DataFrame bytes -> A) h p body (fcs : bool) buf,
    typed_arms l -> In (12, mkArm _ _ data_kind rd_data block) l ->
    ok_data_header h -> payload_ok h p body ->
    length (enc_frame fcs (enc_data h body)) + slack <= length buf ->
    exists buf' n, wr_data (h, p) fcs buf = Ok (buf', n) /\
      match_frames (firstn n buf') (if fcs then Some true else None) (map snd l)
      = Ok (block (if native_le then h else swapped_header h, match p with Some _ => Some body | None => None end)).
(** the elements of a chain are [raws] *)
Definition chain_of_elements (c : Chain) (raws : list RawElement) : Prop :=
  Forall2 item_element (chain_items c) raws /\ Forall wf_item (chain_items c) /\ Forall fits raws /\ end_visible raws [].
End Spec.
