(** What is expected of the size that a read reports: it is the number of bytes that were used. *)
From Verif Require Import Base SpecBase Enums Common Mgmt.

(** the frame check sequence at the end of a frame *)
Definition fcs_size (fcs : bool) : nat := if fcs then 4 else 0.
(** fixed part of a management frame in front of its body *)
Definition mgmt_header_size (h : MgmtHeader) : nat := 2 + 2 + 6 + 6 + 6 + 2 + match mh_ht h with Some _ => 4 | None => 0 end.
(** A frame read from all the bytes of a buffer: the reported size and the frame check sequence are
    together the whole buffer. *)
Definition CountsAll {cfg : Cfg} {W R} (t : BodyType W R) : Prop :=
  forall (fcs : bool) bs h r n, wf_bytes bs -> rd_mgmt t fcs bs = Ok ((h, r), n) -> n + fcs_size fcs = length bs.
(** Only the header and [k] bytes of the body are counted; [payload] is what follows. *)
Definition CountsFixed {cfg : Cfg} {W R} (t : BodyType W R) (k : nat) (payload : R -> bytes) : Prop :=
  forall (fcs : bool) bs h r n, wf_bytes bs -> rd_mgmt t fcs bs = Ok ((h, r), n) ->
    n = mgmt_header_size h + k /\ n + length (payload r) + fcs_size fcs = length bs.
