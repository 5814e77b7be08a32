(** Messages that are repeated until they are acknowledged (IEEE 802.11-2020, 10.3.2.11 and 10.3.2.14), between two stations over a bad channel. *)
From Verif Require Import Base SpecBase Crc SpecFcs Enums Common Elements SpecElements Mgmt SpecMgmt Data SpecData Control Generic SpecGeneric SpecPortable SpecDelivery
  SpecNoise SpecRetry SpecReserve.

(** ** The sender: the messages it has not got acknowledged, the number of the first of them, and whether it has been sent before *)
Record Sender := mkTx { tx_todo : list bytes; tx_number : N; tx_again : bool }.
(** after an attempt: with the next message if it was acknowledged, else with the same again *)
Definition after (tx : Sender) (acknowledged : bool) : Sender :=
  if acknowledged then mkTx (tl (tx_todo tx)) (tx_number tx + 1) false else mkTx (tx_todo tx) (tx_number tx) true.
(** ** The receiver: the last sequence control it has read, and what it has delivered, in this order *)
Record Receiver := mkRx { rx_last : option N; rx_delivered : list bytes }.
Definition repeats (rx : Receiver) (g : Got bytes) : bool :=
  got_retry g && match rx_last rx with Some s => N.eqb s (got_seq g) | None => false end.

Section Spec.
Context {cfg : Cfg}.
(** the block for data frames: those with content, from this sender to this receiver *)
Definition from_to (from to : bytes) (x : DataFrame bytes) : option (Got bytes) :=
  match snd x with
  | Some body => if list_eq_dec N.eq_dec (dh_a2 (fst x)) from then if list_eq_dec N.eq_dec (dh_a1 (fst x)) to then Some (got_data (fun _ => body) x) else None else None
  | None => None
  end.
Definition data_arm (from to : bytes) : nat * Arm (option (Got bytes)) := (12, mkArm _ _ data_kind rd_data (from_to from to)).
(** What arrives, if anything, is dispatched with [match_frames!] with frame check sequence. Frames of the sender are acknowledged, and delivered unless they
    repeat the last one. *)
Definition receives (arms : list (Arm (option (Got bytes)))) (rx : Receiver) (b : option bytes) : Res serr (Receiver * option ControlFrame) :=
  match b with
  | None => Ok (rx, None)
  | Some b =>
    match match_frames b (Some true) arms with
    | Ok (Some g) => Ok (if repeats rx g then rx else mkRx (Some (got_seq g)) (rx_delivered rx ++ [got_what g]), Some (C_Ack 0 0 (got_from g)))
    | Ok None | Err _ => Ok (rx, None)
    | Panic => Panic
    end
  end.
(** The sender [me] looks whether what arrives, if anything, is an acknowledgement for itself. *)
Definition acknowledged (me : bytes) (b : option bytes) : Res serr bool :=
  match b with
  | None => Ok false
  | Some b =>
    match gf_new b true with
    | Ok g =>
      fcf <- gf_fcf g ;;
      match fcf_frame_type fcf with
      | FT_Control s =>
        body <- slice_from g 2 ;;
        match pread (rd_ctrl s (fcf_flags fcf)) body 0 with
        | Ok (C_Ack _ _ ra) => Ok (if list_eq_dec N.eq_dec ra me then true else false)
        | Ok _ | Err _ => Ok false
        | Panic => Panic
        end
      | _ => Ok false
      end
    | Err _ => Ok false
    | Panic => Panic
    end
  end.
(** both, for attempts in which [fst] arrives at the receiver and [snd] at the sender; with the receiver's answers *)
Fixpoint attempts (arms : list (Arm (option (Got bytes)))) (me : bytes) (tx : Sender) (rx : Receiver) (l : list (option bytes * option bytes))
    : Res serr (Sender * Receiver * list (option ControlFrame)) :=
  match l with
  | [] => Ok (tx, rx, [])
  | (there, back) :: rest =>
    '(rx, answer) <- receives arms rx there ;;
    ack <- acknowledged me back ;;
    '(tx, rx, answers) <- attempts arms me (after tx ack) rx rest ;;
    Ok (tx, rx, answer :: answers)
  end.

(** ** The channel *)
(** [f] is the frame with which the sender [from] sends its first message [m] to [to]: with its number in the sequence control field (modulo 4096, fragment 0),
    with the retry flag if it has been sent before, otherwise as the sender likes *)
Inductive transmission (from to : bytes) (tx : Sender) : bytes -> Prop :=
| transmitted : forall m rest h c buf buf' n, tx_todo tx = m :: rest -> ok_data_header h -> dh_a2 h = from -> dh_a1 h = to ->
    dh_seq h = (16 * (tx_number tx mod 4096))%N -> N.testbit (dh_flags h) 3 = tx_again tx -> payload_ok h (Some c) m ->
    length (enc_frame true (enc_data h m)) + slack <= length buf -> wr_data (h, Some c) true buf = Ok (buf', n) ->
    transmission from to tx (firstn n buf').
(** [f] is the control frame [c], to which the hardware has added the frame check sequence *)
Inductive answer_frame (c : ControlFrame) : bytes -> Prop :=
| answered_with : forall buf buf' n fcs, 2 + length (enc_ctrl c) + slack <= length buf -> wr_control c buf = Ok (buf', n) -> is_fcs (firstn n buf') fcs ->
    answer_frame c (firstn n buf' ++ fcs).
(** the frame does not arrive, or damaged *)
Definition spoilt (f : bytes) (b : option bytes) : Prop := match b with None => True | Some b => damaged f b end.
(** nothing, or a frame for somebody else, damaged or not *)
Definition for_others (me : bytes) (b : option bytes) : Prop :=
  match b with None => True | Some b => exists ra d f, wrote ra d f /\ ra <> me /\ (b = f \/ damaged f b) end.
(** [bad_channel l from to tx air answers acks]: what the sender in state [tx] and the receiver hear in a number of attempts. [answers] is what the receiver
    has to answer, [acks] is the number of acknowledgements that arrive. *)
Inductive bad_channel (l : list (nat * Arm (option (Got bytes)))) (from to : bytes) :
    Sender -> list (option bytes * option bytes) -> list (option ControlFrame) -> nat -> Prop :=
| channel_end : forall tx, bad_channel l from to tx [] [] 0
| frame_spoilt : forall tx f b c air answers acks, transmission from to tx f -> spoilt f b -> for_others from c ->
    bad_channel l from to (after tx false) air answers acks -> bad_channel l from to tx ((b, c) :: air) (None :: answers) acks
| other_heard : forall tx f b c air answers acks, transmission from to tx f -> sent l b None -> for_others from c ->
    bad_channel l from to (after tx false) air answers acks -> bad_channel l from to tx ((Some b, c) :: air) (None :: answers) acks
| stranger_heard : forall tx f from' to' tx' b c air answers acks, transmission from to tx f -> transmission from' to' tx' b -> from' <> from \/ to' <> to -> for_others from c ->
    bad_channel l from to (after tx false) air answers acks -> bad_channel l from to tx ((Some b, c) :: air) (None :: answers) acks
| answer_spoilt : forall tx f a b air answers acks, transmission from to tx f -> answer_frame (C_Ack 0 0 from) a -> spoilt a b \/ for_others from b ->
    bad_channel l from to (after tx false) air answers acks -> bad_channel l from to tx ((Some f, b) :: air) (Some (C_Ack 0 0 from) :: answers) acks
| answer_heard : forall tx f a air answers acks, transmission from to tx f -> answer_frame (C_Ack 0 0 from) a ->
    bad_channel l from to (after tx true) air answers acks -> bad_channel l from to tx ((Some f, Some a) :: air) (Some (C_Ack 0 0 from) :: answers) (S acks).
End Spec.
