(** Vocabulary for vendor specific elements with a prefix. *)
From Verif Require Import Base SpecBase Elements.

Section Spec.
Context {cfg : Cfg}.
(** the contents of the vendor specific elements among [es], in order; for scroll versions that refuse empty reads at the end of a slice
    those that are not empty *)
Definition vendor_contents (es : list RawElement) : list bytes :=
  map re_slice (filter (fun e => (re_type e =? 221)%N && negb (strict_end && (length (re_slice e) =? 0))) es).
(** What a reader makes of the contents: those with the prefix, as far as they can be read behind it. *)
Definition with_prefix {R} (prefix : bytes) (read : bytes -> option R) (contents : list bytes) : list R :=
  flat_map (fun c => if list_eq_dec N.eq_dec (firstn (length prefix) c) prefix
                     then match read (skipn (length prefix) c) with Some x => [x] | None => [] end else []) contents.
End Spec.
