(** What is read from an RSN element that was received, written and read again. *)
From Verif Require Import Base Suites Rsn SpecRsn.

(** the number with its two bytes exchanged *)
Definition swap16 (v : N) : N := (v mod 256 * 256 + v / 256)%N.

Section Spec.
Context {cfg : Cfg}.
(** The capabilities are read in the byte order of the machine and written little endian. *)
Definition swapped_caps (y : Rsn) : Rsn :=
  if native_le then y
  else mkRsn (rsn_group y) (rsn_pairwise y) (rsn_akm y) (option_map swap16 (rsn_caps y)) (rsn_pmkids y) (rsn_group_mgmt y).
(** scroll versions that refuse empty reads at the end do not see a list without items behind which nothing comes *)
Definition without_empty_end (y : Rsn) : Rsn :=
  if strict_end then
    match y with
    | mkRsn g (Some (Iter [])) None None None None => mkRsn g None None None None None
    | mkRsn g p (Some (Iter [])) None None None => mkRsn g p None None None None
    | mkRsn g p a c (Some (Iter [])) None => mkRsn g p a c None None
    | _ => y
    end
  else y.
End Spec.
