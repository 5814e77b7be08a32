(** What a relay does to a frame: read it, write what was read. *)
From Verif Require Import Base SpecBase Common Elements SpecElements Mgmt SpecMgmt.

(** the association ID at offset 4 with its two most significant bits set, unless the field is 0 *)
Definition canonical_aid (body : bytes) : bytes :=
  firstn 4 body ++ le_bytes 2 (if (aid_field body =? 0)%N then 0 else 49152 + aid_field body mod 16384)%N ++ skipn 6 body.

Section Spec.
Context {cfg : Cfg}.
(** Whatever frame is accepted can be written again. The written frame is as long as the received
    one and differs from it only in its first byte (the subtype number is that of the type, the
    protocol version is 0) and as [canonical] says in its body; it is read as the same header and
    the same body. *)
Definition MgmtStable {W R} (t : BodyType W R) (subtype : N) (back : R -> W) (canonical : bytes -> bytes) : Prop :=
  forall (fcs : bool) (bs : bytes) (h : MgmtHeader) (r : R) (n : nat), wf_bytes bs -> rd_mgmt t fcs bs = Ok ((h, r), n) ->
  exists b0 rest body,
    let frame := enc_frame fcs ((16 * subtype)%N :: rest ++ canonical body) in
    bs = enc_frame fcs (b0 :: rest ++ body) /\ length rest = 1 + length (enc_mgmt_header h) /\ length frame = length bs /\
    Writes (wr_mgmt t h (back r) fcs) frame /\ pread (rd_mgmt t fcs) frame 0 = Ok (h, r).
End Spec.

(** ** Different values are different bytes *)
Section Injective.
Context {cfg : Cfg}.
(** Two management frames of one type that are written as the same bytes have the same header, the
    same fixed fields and the same elements or payload. *)
Definition MgmtInjective {W R} (t : BodyType W R) (ok : W -> Prop) (cont : W -> Container) (conv : W -> bytes -> R) : Prop :=
  forall (fcs : bool) (frame : bytes) (h1 h2 : MgmtHeader) (w1 w2 : W) (es1 es2 : bytes),
    ok_mgmt_header h1 -> ok_mgmt_header h2 -> ok w1 -> ok w2 -> wf_bytes es1 -> wf_bytes es2 ->
    Writes (c_write (cont w1)) es1 -> Writes (c_write (cont w2)) es2 ->
    Writes (wr_mgmt t h1 w1 fcs) frame -> Writes (wr_mgmt t h2 w2 fcs) frame ->
    h1 = h2 /\ conv w1 es1 = conv w2 es2.
End Injective.
