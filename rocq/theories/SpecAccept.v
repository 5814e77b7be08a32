(** Which received management frames are accepted, and what more bytes at the end change. *)
From Verif Require Import Base SpecBase Crc Common Mgmt SpecMgmt SpecGeneric Data SpecData.

(** type management, and room for the header (with HT control field if the order flag is set) *)
Definition complete_mgmt (m : bytes) : Prop :=
  frame_type_bits m = 0%N /\ (if N.testbit (byte m 1) 7 then 28 else 24) <= length m.
(** type data, and room for the header with the optional fields that subtype and flags announce *)
Definition complete_data (m : bytes) : Prop := frame_type_bits m = 2%N /\ data_header_size (byte m 0) (byte m 1) <= length m.
(** an association ID that is accepted: its lower 14 bits are 1 to 2007 *)
Definition accepted_aid (v : N) : Prop := (1 <= v mod 16384 <= 2007)%N.
(** category Self-protected (15) and this action code in front *)
Definition self_protected (code : N) (body : bytes) : Prop := byte body 0 = 15%N /\ byte body 1 = code.

Section Spec.
Context {cfg : Cfg}.
(** Exactly the complete management frames with such a body are accepted, with FCS if it is correct. *)
Definition Accepted {W R} (t : BodyType W R) (body_ok : bytes -> Prop) : Prop :=
  forall fcs bs, wf_bytes bs ->
  (exists x n, rd_mgmt t fcs bs = Ok (x, n)) <-> exists m, bs = enc_frame fcs m /\ complete_mgmt m /\ body_ok (mgmt_body m).
(** [k] bytes of fixed fields; elements follow *)
Definition fixed_fields (k : nat) (body : bytes) : Prop := k <= length body /\ end_ok (skipn k body).
(** More bytes at the end of a frame without FCS only make its last part longer. *)
Definition Extends {W R} (t : BodyType W R) (extend : R -> bytes -> R) : Prop :=
  forall bs more h r n, rd_mgmt t false bs = Ok ((h, r), n) -> exists n', rd_mgmt t false (bs ++ more) = Ok ((h, extend r more), n').
End Spec.
