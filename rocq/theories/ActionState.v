(** The offset (and buffer) the vendor specific action header functions leave behind, whatever their result:
    /repo/src/frames/mgmt_frame/body/action/vendor.rs:73-101. *)
From Verif Require Import Base Enums Mgmt.

Section ActionState.
Context {cfg : Cfg}.
(** vendor.rs:83-101: result, and [*offset] afterwards *)
Definition strip_state (oui buf : bytes) (off : nat) : Res serr unit * nat :=
  match gread rd_u8 buf off with
  | Err e => (Err e, off)
  | Panic => (Panic, off)
  | Ok (category, off) =>
    if negb (category_eqb (category_from_bits category) Cat_VendorSpecific) then (Err BadInput, off)
    else match gread (rd_bytes 3) buf off with
         | Err e => (Err e, off)
         | Panic => (Panic, off)
         | Ok (read_oui, off) => (if negb (arr_eqb read_oui oui) then Err BadInput else Ok tt, off)
         end
  end.
(** vendor.rs:73-81: result, buffer and [*offset] afterwards; writing a byte or a slice that does not fit writes nothing *)
Definition append_state (oui buf : bytes) (off : nat) : Res serr unit * bytes * nat :=
  match gwrite (wr_u8 (category_into_bits Cat_VendorSpecific)) buf off with
  | Err e => (Err e, buf, off)
  | Panic => (Panic, buf, off)
  | Ok (buf, off) =>
    match gwrite (wr_bytes oui) buf off with
    | Err e => (Err e, buf, off)
    | Panic => (Panic, buf, off)
    | Ok (buf, off) => (Ok tt, buf, off)
    end
  end.
(** trying the OUIs of a list one after the other with the same offset variable: the first that fits, and the offset afterwards *)
Fixpoint strip_first (ouis : list bytes) (buf : bytes) (off : nat) : option bytes * nat :=
  match ouis with
  | [] => (None, off)
  | oui :: rest => let '(r, off) := strip_state oui buf off in
                   match r with Ok _ => (Some oui, off) | _ => strip_first rest buf off end
  end.
End ActionState.
