(** Retransmissions and duplicates (IEEE Std 802.11-2020, 10.3.2.14), for senders and receivers that are built on this crate. *)
From Verif Require Import Base SpecBase Enums Common Elements SpecElements SpecElementTypes Mgmt SpecMgmt Data SpecData Generic SpecGeneric
  SpecPortable SpecDelivery SpecNoise SpecPatch.

(** ** The receiver *)
(** what the block of an arm returns: transmitter, sequence control, retry flag (bit 3 of the flags), content *)
Record Got (X : Type) := mkGot { got_from : bytes; got_seq : N; got_retry : bool; got_what : X }.
Arguments mkGot {X}. Arguments got_from {X}. Arguments got_seq {X}. Arguments got_retry {X}. Arguments got_what {X}.
Definition got_mgmt {R X} (f : R -> X) (x : MgmtHeader * R) : Got X :=
  mkGot (mh_ta (fst x)) (mh_seq (fst x)) (N.testbit (mh_flags (fst x)) 3) (f (snd x)).
Definition got_data {P X} (f : P -> X) (x : DataHeader * P) : Got X :=
  mkGot (dh_a2 (fst x)) (dh_seq (fst x)) (N.testbit (dh_flags (fst x)) 3) (f (snd x)).
(** The receiver remembers the last sequence control of every transmitter and drops frames with the retry flag that repeat it. *)
Fixpoint recall (memory : list (bytes * N)) (from : bytes) : option N :=
  match memory with
  | [] => None
  | (a, s) :: rest => if list_eq_dec N.eq_dec a from then Some s else recall rest from
  end.
Definition repeated {X} (memory : list (bytes * N)) (g : Got X) : bool :=
  got_retry g && match recall memory (got_from g) with Some s => N.eqb s (got_seq g) | None => false end.
Fixpoint without_repeats {X} (memory : list (bytes * N)) (gots : list (Got X)) : list X :=
  match gots with
  | [] => []
  | g :: rest =>
    if repeated memory g then without_repeats memory rest
    else got_what g :: without_repeats ((got_from g, got_seq g) :: memory) rest
  end.

(** ** The senders *)
(** A frame of [n] bytes is sent again: the retry flag is stored in it, and a new frame check sequence. *)
Definition again (f : bytes) : bytes := enc_frame true (change_frame (SetFlags (N.lor (nth 1 f 0%N) 8)) (firstn (length f - 4) f)).

Section Spec.
Context {cfg : Cfg}.
(** [message l f g]: somebody wrote the frame [f], and [g] is what the arm of its type in [l] makes of the header and the content (see [sent]) *)
Inductive message {X} (l : list (nat * Arm (Got X))) : bytes -> Got X -> Prop :=
| message_mgmt : forall W R (t : BodyType W R) i subtype ok fixed cont conv empty_ok f h w es buf buf' n,
    mgmt_type W R t i subtype ok fixed cont conv empty_ok -> In (i, mkArm _ _ (mgmt_kind t) (rd_mgmt t) (got_mgmt f)) l ->
    ok_mgmt_header h -> ok w -> wf_bytes es -> Writes (c_write (cont w)) es -> empty_ok \/ end_ok es ->
    length (enc_frame true (enc_mgmt subtype h (fixed w ++ es))) + slack <= length buf ->
    wr_mgmt t h w true buf = Ok (buf', n) -> message l (firstn n buf') (got_mgmt f (h, conv w es))
| message_data : forall f h p body buf buf' n,
    In (12, mkArm _ _ data_kind rd_data (got_data f)) l -> ok_data_header h -> payload_ok h p body ->
    length (enc_frame true (enc_data h body)) + slack <= length buf ->
    wr_data (h, p) true buf = Ok (buf', n) ->
    message l (firstn n buf') (got_data f (if native_le then h else swapped_header h, match p with Some _ => Some body | None => None end)).
End Spec.

(** ** What arrives *)
(** a copy of a message (given by its number): sent first or again, and what is heard of it; copies that are lost are not listed *)
Record Copy := mkCopy { copy_of : nat; copy_retry : bool; heard : bytes }.
Definition copy_frame (frames : nat -> bytes) (c : Copy) : bytes :=
  if copy_retry c then again (frames (copy_of c)) else frames (copy_of c).
Definition intact (frames : nat -> bytes) (c : Copy) : bool := if list_eq_dec N.eq_dec (heard c) (copy_frame frames c) then true else false.
(** every copy is heard as it was sent, or damaged so that the frame check sequence can tell *)
Definition heard_or_damaged (frames : nat -> bytes) (c : Copy) : Prop :=
  heard c = copy_frame frames c \/ damaged (copy_frame frames c) (heard c).

(** The rules of the senders, for what arrives intact; [from] and [number] give transmitter and sequence control of a message:
    - only the first copy of a message comes without the retry flag;
    - between copies of a message its transmitter sends nothing else;
    - successive messages of a transmitter have different numbers. *)
Definition marked (copies : list Copy) : Prop :=
  forall a c b d e, copies = a ++ c :: b ++ d :: e -> copy_of d = copy_of c -> copy_retry d = true.
Definition one_by_one (from : nat -> bytes) (copies : list Copy) : Prop :=
  forall a c b d e x, copies = a ++ c :: b ++ d :: e -> copy_of d = copy_of c -> In x b -> from (copy_of x) = from (copy_of c) -> copy_of x = copy_of c.
Definition next_of (from : nat -> bytes) (copies : list Copy) (c d : Copy) : Prop :=
  exists a b e, copies = a ++ c :: b ++ d :: e /\ copy_of c <> copy_of d /\ from (copy_of c) = from (copy_of d) /\
    forall x, In x b -> from (copy_of x) <> from (copy_of c).
Definition numbered (from : nat -> bytes) (number : nat -> N) (copies : list Copy) : Prop :=
  forall c d, next_of from copies c d -> number (copy_of c) <> number (copy_of d).
(** the members of a list, every one where it occurs first *)
Fixpoint once (seen l : list nat) : list nat :=
  match l with
  | [] => []
  | k :: rest => if in_dec Nat.eq_dec k seen then once seen rest else k :: once (k :: seen) rest
  end.
(** the sequence control of a frame as it is stored (9.2.4.4), the number above the fragment number 0 *)
Definition stored_number (f : bytes) : N := le_val (firstn 2 (skipn 22 f)).
Definition counted (counter : nat -> N) (frames : nat -> bytes) (from : nat -> bytes) (copies : list Copy) : Prop :=
  (forall c, In c copies -> stored_number (frames (copy_of c)) = (16 * (counter (copy_of c) mod 4096))%N) /\
  (forall c d, next_of from copies c d -> (counter (copy_of c) < counter (copy_of d) < counter (copy_of c) + 4096)%N).
