(** Aggregate MSDUs: /repo/src/frames/data_frame/amsdu.rs. *)
From Verif Require Import Base Mgmt.

(** amsdu.rs:13-19; [P] is a byte string when read and a [Container] when written *)
Record AMSDUSubframe (P : Type) := mkSub { sf_da : bytes; sf_sa : bytes; sf_payload : P }.
Arguments mkSub {P}. Arguments sf_da {P}. Arguments sf_sa {P}. Arguments sf_payload {P}.
(** amsdu.rs:44-45: [offset += 3; offset &= !0b11] *)
Definition round4 (n : nat) : nat := (n + 3) / 4 * 4.

Section Amsdu.
Context {cfg : Cfg}.
(** amsdu.rs:20-26 *)
Definition sub_length (s : AMSDUSubframe bytes) : nat := 14 + length (sf_payload s).
(** amsdu.rs:27-31 *)
Definition sub_measure (s : AMSDUSubframe Container) : nat := 14 + c_measure (sf_payload s).
(** amsdu.rs:32-53 *)
Definition rd_subframe : reader (AMSDUSubframe bytes) := fun from =>
  '(da, off) <- gread (rd_bytes 6) from 0 ;;
  '(sa, off) <- gread (rd_bytes 6) from off ;;
  '(len, off) <- gread (rd_le 2) from off ;;
  '(payload, off) <- gread (rd_bytes (N.to_nat len)) from off ;;
  Ok (mkSub da sa payload, round4 off).
(** amsdu.rs:54-75; [as u16] drops the higher bits of the length *)
Definition wr_subframe (s : AMSDUSubframe Container) : writer := fun buf =>
  '(buf, off) <- wseq [wr_bytes (sf_da s); wr_bytes (sf_sa s);
                       wr_le 2 (N.of_nat (c_measure (sf_payload s))); c_write (sf_payload s)] buf ;;
  Ok (buf, round4 off).
(** amsdu.rs:100-117: one call of [next]; the state is the option kept by the iterator *)
Definition sub_next (st : option bytes) : Res serr (option (AMSDUSubframe bytes) * option bytes) :=
  match st with
  | None => Ok (None, None)
  | Some bs =>
    match gread rd_subframe bs 0 with
    | Ok (s, off) => rest <- slice_from bs off ;; Ok (Some s, Some rest)
    | Err _ => Ok (None, None)
    | Panic => Panic
    end
  end.
(** A loop over the iterator: the items up to the first [None]. Every item takes at least 14 bytes,
    so [length bs + 1] calls suffice. *)
Fixpoint sub_collect (fuel : nat) (st : option bytes) : Res serr (list (AMSDUSubframe bytes)) :=
  match fuel with
  | O => Ok []
  | S fuel' =>
    '(x, st') <- sub_next st ;;
    match x with
    | None => Ok []
    | Some s => l <- sub_collect fuel' st' ;; Ok (s :: l)
    end
  end.
(** [AMSDUSubframeIterator::from_bytes(bs).collect()], amsdu.rs:83-92 *)
Definition amsdu_items (bs : bytes) : Res serr (list (AMSDUSubframe bytes)) :=
  sub_collect (S (length bs)) (Some bs).
(** amsdu.rs:93-98 *)
Definition amsdu_iter_length (st : option bytes) : nat :=
  match st with Some bs => length bs | None => 0 end.
(** amsdu.rs:127-138 *)
Definition amsdu_length (l : list (AMSDUSubframe bytes)) : nat := list_sum (map sub_length l).
(** amsdu.rs:139-149 *)
Definition amsdu_measure (l : list (AMSDUSubframe Container)) : nat := list_sum (map sub_measure l).
(** amsdu.rs:150-161 *)
Definition c_amsdu (l : list (AMSDUSubframe Container)) : Container :=
  mkC (amsdu_measure l) (wseq (map wr_subframe l)).
End Amsdu.
