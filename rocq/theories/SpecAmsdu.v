(** Where the parts of an A-MSDU end, for buffers of any size. *)
From Verif Require Import Base SpecBase Amsdu Data SpecData.

(** the end of the last subframe, without its padding *)
Fixpoint reach (l : list (AMSDUSubframe bytes)) : nat :=
  match l with
  | [] => 0
  | [s] => length (enc_sub s)
  | s :: l => length (enc_sub s) + pad_length (length (enc_sub s)) + reach l
  end.
