(** C95: a listener keeps quiet for exactly as long as the frames it hears reserve the medium. The specification is SpecReserve.v. *)
From Verif Require Import Base SpecBase SpecFcs Enums Common Mgmt SpecMgmt Control Generic SpecGeneric SpecNoise ScanFacts2 SpecReserve ReserveFacts ReserveFacts2.

(** Whatever management, data and control frames arrive, whenever and for however long, damaged or not, on machines of both byte orders: at the time [t] the listener is quiet if and only
    if an undamaged frame for somebody else has reserved [t]. *)
Theorem C95_quiet : forall (cfg : Cfg) me events res, arrives events res ->
  exists nav, quiet_until me 0 events = Ok nav /\ forall t, (t < nav)%N <-> reserved me res t.
Proof. exact @virtual_carrier_sense. Qed.
Print Assumptions C95_quiet.
(** The receiver of a request to send (RTS) reads it, and answers to its sender (CTS) with the time that is left. *)
Theorem C95_answer : forall (cfg : Cfg) me gap fl d ta buf buf' n fcs, ok_ctrl (C_RTS fl d me ta) -> 16 + slack <= length buf -> wr_control (C_RTS fl d me ta) buf = Ok (buf', n) ->
  is_fcs (firstn n buf') fcs -> (gap <= d)%N -> answers me gap (firstn n buf' ++ fcs) = Ok (Some (C_CTS 0 (d - gap) ta)) /\ ok_ctrl (C_CTS 0 (d - gap) ta).
Proof. exact @answered. Qed.
Print Assumptions C95_answer.
(** Only a frame for this station with enough time is ever answered, and no damaged frame. *)
Theorem C95_only : forall (cfg : Cfg) me gap ra d f x, wrote ra d f -> answers me gap f = Ok (Some x) -> ra = me /\ (gap <= d)%N /\ exists ta, x = C_CTS 0 (d - gap) ta.
Proof. exact @answered_only. Qed.
Print Assumptions C95_only.
Theorem C95_not_answered : forall (cfg : Cfg) me gap ra d f b, wrote ra d f -> damaged f b -> exists e, answers me gap b = Err e.
Proof. exact @not_answered. Qed.
Print Assumptions C95_not_answered.
(** So every third station that hears the request of [a] to [b] at the time [t], or only the answer, is quiet to the end of the exchange, whatever else it hears. *)
Theorem C95_exchange : forall (cfg : Cfg) me a b t d gap events res, arrives events res -> me <> a -> me <> b -> (d < 32768)%N -> (gap <= d)%N ->
  In (t, b, d) res \/ In (t + gap, a, d - gap)%N res -> exists nav, quiet_until me 0 events = Ok nav /\ (t + d <= nav)%N.
Proof. exact @exchange. Qed.
Print Assumptions C95_exchange.
(** A beacon, a damaged request, the answer to it, a PS-Poll frame, whose field is not a duration, and another request, at the third station and at the sender of the request. *)
Example C95_ex : forall (cfg : Cfg), arrives ex_events [(100, mh_ra (ex_header st_b), mh_duration (ex_header st_b)); (1050, st_a, 250); (1100, st_b, 0xc001); (900, st_b, 300)]%N.
Proof. exact @ex_arrives. Qed.
Example C95_quiet_ex : forall (cfg : Cfg), quiet_until st_c 0 ex_events = Ok 1300%N /\ quiet_until st_a 0 ex_events = Ok 1200%N /\ answers st_b 50 rts_air = Ok (Some cts).
Proof. exact @ex_quiet. Qed.
Example C95_only_ex : forall (cfg : Cfg), (wrote st_b 300 rts_air /\ damaged rts_air bad_rts) /\ answers st_c 50 rts_air = Ok None /\ answers st_b 301 rts_air = Ok None.
Proof. exact @ex_unanswered. Qed.
