(** Fragmentation and reassembly of data (IEEE Std 802.11-2020, 10.4 and 10.5), for senders and receivers that are built on this crate. *)
From Verif Require Import Base SpecBase Enums Common Bits Layouts Mgmt SpecMgmt Data SpecData Generic SpecGeneric SpecPortable SpecDelivery SpecNoise SpecAccessors.

(** ** The senders *)
(** a message: the common part of its headers, its sequence number, and its content in pieces *)
Record Split := mkSplit { sp_header : DataHeader; sp_number : N; sp_pieces : list bytes }.
Definition pieces_of (m : Split) : nat := length (sp_pieces m).
Definition ok_split (m : Split) : Prop :=
  ok_data_header (sp_header m) /\ std_has_payload (subtype_number (sp_header m)) = true /\
  N.testbit (dh_flags (sp_header m)) 2 = false /\ N.testbit (dh_flags (sp_header m)) 3 = false /\
  (sp_number m < 4096)%N /\ 1 <= pieces_of m <= 16 /\ Forall wf_bytes (sp_pieces m).
(** The header of piece [i]: bit 2 of the flags (More Fragments) on all but the last piece, bit 3 (Retry) on repetitions, and the sequence control. *)
Definition piece_flags (m : Split) (i : nat) (retry : bool) : N :=
  N.lor (N.lor (dh_flags (sp_header m)) (if S i <? pieces_of m then 4 else 0)) (if retry then 8 else 0).
Definition piece_header (m : Split) (i : nat) (retry : bool) : DataHeader :=
  let h := sp_header m in
  mkDH (dh_subtype h) (piece_flags m i retry) (dh_duration h) (dh_a1 h) (dh_a2 h) (dh_a3 h) (sequence_control (N.of_nat i) (sp_number m)) (dh_a4 h) (dh_qos h) (dh_ht h).
Definition piece (m : Split) (i : nat) : bytes := nth i (sp_pieces m) [].
Definition send_piece {cfg : Cfg} (m : Split) (i : nat) (retry : bool) (buf : bytes) : Res serr bytes :=
  '(buf', n) <- wr_data (piece_header m i retry, Some (c_bytes (piece m i))) true buf ;; Ok (firstn n buf').
Definition piece_frame (m : Split) (i : nat) (retry : bool) : bytes := enc_frame true (enc_data (piece_header m i retry) (piece m i)).

(** ** The receiver *)
(** what the arm for data frames returns *)
Record Piece := mkPiece { pc_from : bytes; pc_seq : N; pc_retry : bool; pc_more : bool; pc_bytes : bytes }.
Definition got_piece (x : DataHeader * option bytes) : option Piece :=
  match snd x with
  | Some p => Some (mkPiece (dh_a2 (fst x)) (dh_seq (fst x)) (lgetb FCFFlags_layout "retry" (dh_flags (fst x))) (lgetb FCFFlags_layout "more_fragments" (dh_flags (fst x))) p)
  | None => None
  end.
(** The receiver remembers for every transmitter the last sequence control, and the bytes so far if they are to be continued. *)
Definition Partial : Type := N * option bytes.
Fixpoint partial (memory : list (bytes * Partial)) (from : bytes) : option Partial :=
  match memory with
  | [] => None
  | (a, s) :: rest => if list_eq_dec N.eq_dec a from then Some s else partial rest from
  end.
(** what the piece completes to, if it belongs to something begun *)
Definition joined (before : option Partial) (p : Piece) : option bytes :=
  if (seq_fragment_number (pc_seq p) =? 0)%N then Some (pc_bytes p)
  else match before with
       | Some (s, Some acc) =>
         if ((seq_sequence_number s =? seq_sequence_number (pc_seq p)) && (seq_fragment_number s + 1 =? seq_fragment_number (pc_seq p)))%N
         then Some (acc ++ pc_bytes p) else None
       | _ => None
       end.
Definition repetition (before : option Partial) (p : Piece) : bool :=
  pc_retry p && match before with Some (s, _) => N.eqb s (pc_seq p) | None => false end.
Fixpoint reassemble (memory : list (bytes * Partial)) (ps : list (option Piece)) : list (bytes * bytes) :=
  match ps with
  | [] => []
  | None :: rest => reassemble memory rest
  | Some p :: rest =>
    let before := partial memory (pc_from p) in
    if repetition before p then reassemble memory rest else
    let j := joined before p in
    let keep := if pc_more p then j else None in
    (match j with Some whole => if pc_more p then [] else [(pc_from p, whole)] | None => [] end)
      ++ reassemble ((pc_from p, (pc_seq p, keep)) :: memory) rest
  end.

(** ** What arrives *)
(** a copy of a piece: message (by its number), piece, and whether it is marked as a repetition *)
Record PieceCopy := mkPC { of_message : nat; of_piece : nat; is_again : bool }.
Definition copy_piece_frame (messages : nat -> Split) (c : PieceCopy) : bytes := piece_frame (messages (of_message c)) (of_piece c) (is_again c).
(** [heard_air l messages air copies]: [air] consists of the [copies], in this order, and of anything else that was sent (and does not return a piece), where any
    frame may be damaged as the frame check sequence can tell; copies that are lost or damaged are not in [copies] *)
Inductive heard_air {cfg : Cfg} (l : list (nat * Arm (option Piece))) (messages : nat -> Split) : list bytes -> list PieceCopy -> Prop :=
| air_end : heard_air l messages [] []
| air_copy : forall c air copies, ok_split (messages (of_message c)) -> of_piece c < pieces_of (messages (of_message c)) ->
    heard_air l messages air copies -> heard_air l messages (copy_piece_frame messages c :: air) (c :: copies)
| air_hurt : forall c b air copies, ok_split (messages (of_message c)) -> of_piece c < pieces_of (messages (of_message c)) ->
    damaged (copy_piece_frame messages c) b -> heard_air l messages air copies -> heard_air l messages (b :: air) copies
| air_other : forall f air copies, sent l f None -> heard_air l messages air copies -> heard_air l messages (f :: air) copies
| air_other_hurt : forall f a b air copies, sent l f a -> damaged f b -> heard_air l messages air copies -> heard_air l messages (b :: air) copies.

(** The rules of the senders, for what arrives intact; [from] gives the transmitter of a message:
    - a repetition of a piece is marked;
    - the pieces of a message come in order, and its transmitter sends nothing else in between;
    - every transmitter counts its messages modulo 4096, and less than 4096 in a row are lost. *)
Definition pieces_marked (copies : list PieceCopy) : Prop :=
  forall a c b d e, copies = a ++ c :: b ++ d :: e -> of_message d = of_message c -> of_piece d = of_piece c -> is_again d = true.
Definition pieces_ordered (from : nat -> bytes) (copies : list PieceCopy) : Prop :=
  forall a c b d e, copies = a ++ c :: b ++ d :: e -> of_message d = of_message c ->
    of_piece c <= of_piece d /\ forall x, In x b -> from (of_message x) = from (of_message c) -> of_message x = of_message c.
Definition following (from : nat -> bytes) (copies : list PieceCopy) (c d : PieceCopy) : Prop :=
  exists a b e, copies = a ++ c :: b ++ d :: e /\ of_message c <> of_message d /\ from (of_message c) = from (of_message d) /\
    forall x, In x b -> from (of_message x) <> from (of_message c).
Definition messages_counted (counter : nat -> N) (messages : nat -> Split) (from : nat -> bytes) (copies : list PieceCopy) : Prop :=
  (forall c, In c copies -> sp_number (messages (of_message c)) = (counter (of_message c) mod 4096)%N) /\
  (forall c d, following from copies c d -> (counter (of_message c) < counter (of_message d) < counter (of_message c) + 4096)%N).
(** the messages of which all pieces are there, in the order in which their last pieces arrive *)
Definition has_piece (copies : list PieceCopy) (k i : nat) : bool :=
  existsb (fun c => (of_message c =? k) && (of_piece c =? i)) copies.
Fixpoint finished (size : nat -> nat) (past copies : list PieceCopy) : list nat :=
  match copies with
  | [] => []
  | c :: rest =>
    let k := of_message c in
    (if negb (has_piece past k (of_piece c)) && (S (of_piece c) =? size k) && forallb (has_piece (past ++ [c]) k) (seq 0 (size k)) then [k] else [])
      ++ finished size (past ++ [c]) rest
  end.
