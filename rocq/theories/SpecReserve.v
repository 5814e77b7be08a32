(** Stations that reserve the medium with the duration fields of their frames, and stations that listen and keep quiet meanwhile (10.3.2.4, virtual carrier sense). *)
From Verif Require Import Base SpecBase Crc SpecFcs Enums Common Elements SpecElements Mgmt SpecMgmt Data SpecData Control Generic SpecGeneric SpecDelivery SpecNoise.

(** ** Frames *)
(** receiver and duration (in microseconds) of a control frame: behind the frame control field, in the frames of which the crate knows the fields and in the others *)
Definition ctrl_says (c : ControlFrame) : option (bytes * N) :=
  match c with
  | C_RTS _ d ra _ | C_CTS _ d ra | C_Ack _ d ra => Some (ra, d)
  | C_Unknown _ _ body => if 8 <=? length body then Some (firstn 6 (skipn 2 body), le_val (firstn 2 body)) else None
  end.
Section Spec.
Context {cfg : Cfg}.
(** how a control frame is written: frame control field and body; the hardware adds the frame check sequence *)
Definition wr_control (c : ControlFrame) : writer := fun buf => fcf <- ctrl_fcf c ;; wseq [wr_le 2 fcf; wr_ctrl c] buf.
(** [wrote ra d f]: somebody wrote the frame [f] for the receiver [ra] with the duration [d] *)
Inductive wrote : bytes -> N -> bytes -> Prop :=
| wrote_mgmt : forall W R (t : BodyType W R) i subtype ok fixed cont conv empty_ok h w es buf buf' n,
    mgmt_type W R t i subtype ok fixed cont conv empty_ok -> ok_mgmt_header h -> ok w -> wf_bytes es -> Writes (c_write (cont w)) es ->
    length (enc_frame true (enc_mgmt subtype h (fixed w ++ es))) + slack <= length buf ->
    wr_mgmt t h w true buf = Ok (buf', n) -> wrote (mh_ra h) (mh_duration h) (firstn n buf')
| wrote_data : forall h p body buf buf' n, ok_data_header h -> payload_ok h p body -> length (enc_frame true (enc_data h body)) + slack <= length buf ->
    wr_data (h, p) true buf = Ok (buf', n) -> wrote (dh_a1 h) (dh_duration h) (firstn n buf')
| wrote_ctrl : forall c ra d buf buf' n fcs, ok_ctrl c -> ctrl_says c = Some (ra, d) -> 2 + length (enc_ctrl c) + slack <= length buf ->
    wr_control c buf = Ok (buf', n) -> is_fcs (firstn n buf') fcs -> wrote ra d (firstn n buf' ++ fcs).

(** ** The listener *)
(** What the station [me], that keeps quiet until [nav], does when a frame has arrived at a time: frames with errors are ignored, as are those for itself and those whose duration
    field, 32768 or more, is not a duration. *)
Definition hears (me : bytes) (nav : N) (event : N * bytes) : Res serr N :=
  match gf_new (snd event) true with
  | Ok g => a <- gf_address_1 g ;; d <- gf_duration g ;;
      Ok (if list_eq_dec N.eq_dec a me then nav else if (32768 <=? d)%N then nav else N.max nav (fst event + d))
  | Err _ => Ok nav
  | Panic => Panic
  end.
Fixpoint quiet_until (me : bytes) (nav : N) (events : list (N * bytes)) : Res serr N :=
  match events with [] => Ok nav | e :: rest => nav' <- hears me nav e ;; quiet_until me nav' rest end.

(** ** What arrives, and when: frames and damaged frames. [res] are the times, receivers and durations of the undamaged ones. *)
Inductive arrives : list (N * bytes) -> list (N * bytes * N) -> Prop :=
| arrives_none : arrives [] []
| arrives_frame : forall t ra d f events res, wrote ra d f -> arrives events res -> arrives ((t, f) :: events) ((t, ra, d) :: res)
| arrives_damaged : forall t ra d f b events res, wrote ra d f -> damaged f b -> arrives events res -> arrives ((t, b) :: events) res.
(** the time [t] is reserved, for others than [me] *)
Definition reserved (me : bytes) (res : list (N * bytes * N)) (t : N) : Prop := exists t0 ra d, In (t0, ra, d) res /\ ra <> me /\ (d < 32768)%N /\ (t < t0 + d)%N.

(** ** The receiver of a request to send answers that the medium is free; [gap] is the time from the end of the request to the end of the answer. It reads the request behind
    the frame control field. *)
Definition answers (me : bytes) (gap : N) (f : bytes) : Res serr (option ControlFrame) :=
  g <- gf_new f true ;; fcf <- gf_fcf g ;;
  match fcf_frame_type fcf with
  | FT_Control s => body <- slice_from f 2 ;; c <- pread (rd_ctrl s (fcf_flags fcf)) body 0 ;;
      Ok (match c with C_RTS _ d ra ta => if list_eq_dec N.eq_dec ra me then if (gap <=? d)%N then Some (C_CTS 0 (d - gap)%N ta) else None else None | _ => None end)
  | _ => Ok None
  end.
End Spec.
