(** Base of the model: results with panics, byte strings, integers on the wire and the
    primitives of the [scroll] crate (0.13.0, a dependency whose source is not in /repo;
    modelled from its documented behaviour, see DESIGN.md, trusted base). *)
From Coq Require Export List Arith NArith ZArith Bool Lia.
From Coq Require Export ZifyBool ZifyNat ZifyN.
Export ListNotations.

(** Facts about the build and about scroll which the text of /repo does not determine.
    Every definition below is parametric in them. *)
Class Cfg := {
  (** scroll refuses a read/write starting exactly at the end of the slice *)
  strict_end : bool;
  (** little-endian target; used by [gread]/[gwrite] of integers without a context *)
  native_le : bool;
  (** debug build: arithmetic overflow panics instead of wrapping *)
  overflow_checks : bool
}.

(** Outcome of a Rust function: [Ok]/[Err] of [Result], or a panic. *)
Inductive Res (E A : Type) : Type :=
| Ok (a : A)
| Err (e : E)
| Panic.
Arguments Ok {E A} a.
Arguments Err {E A} e.
Arguments Panic {E A}.

Definition rbind {E A B} (m : Res E A) (k : A -> Res E B) : Res E B :=
  match m with Ok a => k a | Err e => Err e | Panic => Panic end.
Notation "x <- m ;; k" := (rbind m (fun x => k))
  (at level 61, m at next level, right associativity).
Notation "' p <- m ;; k" := (rbind m (fun p => k))
  (at level 61, p pattern, m at next level, right associativity).

Definition rmap {E A B} (f : A -> B) (m : Res E A) : Res E B :=
  match m with Ok a => Ok (f a) | Err e => Err e | Panic => Panic end.

(** Rust [Result::ok] for a computation that may also panic. *)
Definition res_ok {E F A} (m : Res E A) : Res F (option A) :=
  match m with Ok a => Ok (Some a) | Err _ => Ok None | Panic => Panic end.

(** Rust [Result::unwrap] *)
Definition res_unwrap {E F A} (m : Res E A) : Res F A :=
  match m with Ok a => Ok a | _ => Panic end.

(** Kinds of [scroll::Error]; the payloads (sizes, messages) are not modelled. *)
Inductive serr := BadOffset | TooBig | BadInput.

Definition byte := N.
Definition bytes := list N.
Definition wf_bytes (bs : bytes) : Prop := Forall (fun b => (b < 256)%N) bs.
Definition wf_bytesb (bs : bytes) : bool := forallb (fun b => (b <? 256)%N) bs.

(** [n] byte little-endian representation ([to_le_bytes]); higher bits are dropped. *)
Fixpoint le_bytes (n : nat) (v : N) : bytes :=
  match n with
  | O => []
  | S n' => (v mod 256)%N :: le_bytes n' (v / 256)%N
  end.
(** value of a little-endian byte string ([from_le_bytes]) *)
Fixpoint le_val (bs : bytes) : N :=
  match bs with
  | [] => 0%N
  | b :: bs' => (b + 256 * le_val bs')%N
  end.
Definition be_bytes (n : nat) (v : N) : bytes := rev (le_bytes n v).
Definition be_val (bs : bytes) : N := le_val (rev bs).

(** ** Slices: [&bs[a..]], [&bs[..b]], [&bs[a..b]] *)
Definition slice_from {E} (bs : bytes) (a : nat) : Res E bytes :=
  if a <=? length bs then Ok (skipn a bs) else Panic.
Definition slice_to {E} (bs : bytes) (b : nat) : Res E bytes :=
  if b <=? length bs then Ok (firstn b bs) else Panic.
Definition slice {E} (bs : bytes) (a b : nat) : Res E bytes :=
  if (a <=? b) && (b <=? length bs) then Ok (firstn (b - a) (skipn a bs)) else Panic.
(** [usize] subtraction. In debug builds an underflow panics. In release builds it wraps to
    a value larger than any slice; all uses in the crate are as a slice bound, so it panics
    there. *)
Definition usub {E} (a b : nat) : Res E nat :=
  if b <=? a then Ok (a - b) else Panic.

Section Scroll.
Context {cfg : Cfg}.

(** ** Reading: [TryFromCtx::try_from_ctx(from, ctx)] returns the value and the size. *)
Definition reader (A : Type) := bytes -> Res serr (A * nat).

Definition end_bad (off len : nat) : bool :=
  if strict_end then len <=? off else len <? off.

(** [from.gread(&mut off)]: value and new offset. The size reported by the nested reader
    is added without a check. *)
Definition gread {A} (r : reader A) (from : bytes) (off : nat) : Res serr (A * nat) :=
  if end_bad off (length from) then Err BadOffset
  else match r (skipn off from) with
       | Ok (x, n) => Ok (x, off + n)
       | Err e => Err e
       | Panic => Panic
       end.
(** [from.pread(off)] *)
Definition pread {A} (r : reader A) (from : bytes) (off : nat) : Res serr A :=
  match gread r from off with
  | Ok (x, _) => Ok x
  | Err e => Err e
  | Panic => Panic
  end.

(** [&[u8]] with length context, [[u8; N]] *)
Definition rd_bytes (n : nat) : reader bytes := fun from =>
  if length from <? n then Err TooBig else Ok (firstn n from, n).
Definition rd_u8 : reader N := fun from =>
  match from with [] => Err TooBig | b :: _ => Ok (b, 1) end.
(** unsigned integers of [n] bytes, [Endian::Little], [Endian::Big], native *)
Definition rd_le (n : nat) : reader N := fun from =>
  if length from <? n then Err TooBig else Ok (le_val (firstn n from), n).
Definition rd_be (n : nat) : reader N := fun from =>
  if length from <? n then Err TooBig else Ok (be_val (firstn n from), n).
Definition rd_ne (n : nat) : reader N := if native_le then rd_le n else rd_be n.

(** ** Writing: [TryIntoCtx::try_into_ctx(self, buf, ctx)] gives the buffer afterwards and
    the written size. *)
Definition writer := bytes -> Res serr (bytes * nat).

(** [buf.gwrite(x, &mut off)]: new buffer and new offset *)
Definition gwrite (w : writer) (buf : bytes) (off : nat) : Res serr (bytes * nat) :=
  if end_bad off (length buf) then Err BadOffset
  else match w (skipn off buf) with
       | Ok (b', n) => Ok (firstn off buf ++ b', off + n)
       | Err e => Err e
       | Panic => Panic
       end.
(** [buf.pwrite(x, off)]: new buffer and written size *)
Definition pwrite (w : writer) (buf : bytes) (off : nat) : Res serr (bytes * nat) :=
  match gwrite w buf off with
  | Ok (b', n) => Ok (b', n - off)
  | Err e => Err e
  | Panic => Panic
  end.

(** [&[u8]], [&str], [[u8; N]] *)
Definition wr_bytes (bs : bytes) : writer := fun buf =>
  if length buf <? length bs then Err TooBig
  else Ok (bs ++ skipn (length bs) buf, length bs).
Definition wr_u8 (v : N) : writer := wr_bytes (le_bytes 1 v).
Definition wr_le (n : nat) (v : N) : writer := wr_bytes (le_bytes n v).
Definition wr_be (n : nat) (v : N) : writer := wr_bytes (be_bytes n v).
Definition wr_ne (n : nat) (v : N) : writer := if native_le then wr_le n v else wr_be n v.

(** A body of the form [buf.gwrite(x1, &mut offset)?; ...; buf.gwrite(xn, &mut offset)?]
    starting from a given buffer and offset. *)
Fixpoint wseq_from (ws : list writer) (buf : bytes) (off : nat) : Res serr (bytes * nat) :=
  match ws with
  | [] => Ok (buf, off)
  | w :: ws' => '(buf', off') <- gwrite w buf off ;; wseq_from ws' buf' off'
  end.
(** [let mut offset = 0; ...; Ok(offset)] *)
Definition wseq (ws : list writer) : writer := fun buf => wseq_from ws buf 0.
End Scroll.
