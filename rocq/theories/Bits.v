(** Bit field structures as generated by the dependency bitfield-struct 0.11.0 (modelled from its
    documentation): fields are allocated from the least significant bit upwards in declaration
    order; [from_bits]/[into_bits] of the structure keep the raw word. *)
From Coq Require Export String List.
From Verif Require Import Base.
Local Open Scope N_scope.

(** value of the [w] bits at offset [o] *)
Definition bf_get (o w x : N) : N := N.land (N.shiftr x o) (N.ones w).
(** replace the [w] bits at offset [o] by the low [w] bits of [v] *)
Definition bf_set (o w v x : N) : N :=
  N.lor (N.ldiff x (N.shiftl (N.ones w) o)) (N.shiftl (N.land v (N.ones w)) o).

(** A structure: field names with their widths, in declaration order. Padding fields ([__],
    [_reserved]) have no accessors. *)
Definition layout := list (string * N).

Fixpoint lpos_from (o : N) (lay : layout) (nm : string) : option (N * N) :=
  match lay with
  | [] => None
  | (f, w) :: lay' => if String.eqb f nm then Some (o, w) else lpos_from (o + w) lay' nm
  end.
(** offset and width of a field *)
Definition lpos (lay : layout) (nm : string) : option (N * N) := lpos_from 0 lay nm.
Definition lay_width (lay : layout) : N := fold_right N.add 0 (map snd lay).

(** getter [x.nm()] *)
Definition lget (lay : layout) (nm : string) (x : N) : N :=
  match lpos lay nm with Some (o, w) => bf_get o w x | None => 0 end.
Definition lgetb (lay : layout) (nm : string) (x : N) : bool := negb (lget lay nm x =? 0).
(** the value part of the setters [x.with_nm(v)], [x.set_nm(v)] *)
Definition lset (lay : layout) (nm : string) (v x : N) : N :=
  match lpos lay nm with Some (o, w) => bf_set o w v x | None => x end.
Definition lsetb (lay : layout) (nm : string) (b : bool) (x : N) : N := lset lay nm (N.b2n b) x.
(** the setters including [debug_assert!(value <= mask)] *)
Definition lwith {cfg : Cfg} {E} (lay : layout) (nm : string) (v x : N) : Res E N :=
  match lpos lay nm with
  | Some (o, w) => if overflow_checks && (N.ones w <? v) then Panic else Ok (bf_set o w v x)
  | None => Ok x
  end.
