(** What a write that fails may leave in the caller's buffer (C74). *)
From Verif Require Import Base Crc Elements SpecElements Amsdu Stores.

(** What a write does to a byte of the buffer: it stores a value, or leaves the byte alone, or stores a checksum over bytes of which some
    were left alone. *)
Inductive Cell := Byte (b : N) | Kept | Check.

Section Spec.
Context {cfg : Cfg}.
Definition is_byte (c : Cell) : bool := match c with Byte _ => true | _ => false end.
Definition cell_byte (c : Cell) : N := match c with Byte b => b | _ => 0%N end.
(** what a program does to the bytes of the buffer from its start on, up to the place where it refuses the value *)
Fixpoint image (p : Prog) : list Cell :=
  match p with
  | Store bs => map Byte bs
  | Steps ps => concat (map image ps)
  | Refuse _ | Crash => []
  | Then body (Some bs) => image body ++ map Byte bs
  | Then body None => image body
  | Fill be n body value => map Byte (field_bytes be n (value (length (image body)))) ++ image body
  | Rounded body => image body ++ repeat Kept (round4 (length (image body)) - length (image body))
  | Sealed body =>
    image body ++ (if forallb is_byte (image body) then map Byte (le_bytes 4 (crc32 (map cell_byte (image body)))) else repeat Check 4)
  end.

(** After a refused write every byte is as before or the byte the write would have put there, and bytes behind the frame are as before. *)
Definition Torn (cells : list Cell) (buf b' : bytes) : Prop :=
  length b' = length buf /\
  forall i, i < length buf ->
    match nth i cells Kept with
    | Byte v => nth i b' 0%N = nth i buf 0%N \/ nth i b' 0%N = v
    | Kept => nth i b' 0%N = nth i buf 0%N
    | Check => True
    end.
(** after a successful write *)
Definition Done (cells : list Cell) (buf b' : bytes) : Prop :=
  length b' = length buf /\
  forall i, i < length buf ->
    match nth i cells Kept with
    | Byte v => nth i b' 0%N = v
    | Kept => nth i b' 0%N = nth i buf 0%N
    | Check => True
    end.

(** the front of the encoding, the rest as before *)
Definition CutOff (enc buf b' : bytes) : Prop := exists k, k <= length enc /\ k <= length buf /\ b' = firstn k enc ++ skipn k buf.
(** programs which store one byte after the other *)
Fixpoint Straight (p : Prog) : Prop :=
  match p with
  | Store _ | Refuse _ | Crash => True
  | Steps ps => fold_right and True (map Straight ps)
  | Then body _ | Sealed body => Straight body
  | Fill _ _ _ _ | Rounded _ => False
  end.

(** Elements added one after the other, the first one at [start]: where the refused ones would have gone, and their bytes. *)
Fixpoint refused_calls (start : nat) (calls : list (Elem * bool)) (raws : list RawElement) : list (nat * bytes) :=
  match calls, raws with
  | (_, true) :: calls', raw :: raws' => refused_calls (start + length (enc_element raw)) calls' raws'
  | (_, false) :: calls', raw :: raws' => (start, enc_element raw) :: refused_calls start calls' raws'
  | _, _ => []
  end.
(** a byte is as before or a byte of one of these elements at its place *)
Definition stray (old new : bytes) (refused : list (nat * bytes)) (i : nat) : Prop :=
  nth i new 0%N = nth i old 0%N \/
  exists off bs, In (off, bs) refused /\ off <= i < off + length bs /\ nth i new 0%N = nth (i - off) bs 0%N.
End Spec.
