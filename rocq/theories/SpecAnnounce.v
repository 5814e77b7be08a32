(** Stations that announce something in an element, in any kind of management frame with elements, and change it as time goes on. *)
From Verif Require Import Base SpecBase Common Elements SpecElements Mgmt SpecMgmt Generic SpecGeneric SpecDelivery SpecNoise.

(** what was said last by [a] *)
Fixpoint latest {A} (a : bytes) (l : list (bytes * A)) : option A :=
  match l with
  | [] => None
  | (b, x) :: rest => match latest a rest with Some y => Some y | None => if list_eq_dec N.eq_dec b a then Some x else None end
  end.

Section Spec.
Context {cfg : Cfg}.
(** a kind of management frame with elements: [view] is the field of the read body with their bytes *)
Definition with_elements {W R} (t : BodyType W R) (i : nat) (subtype : N) (ok : W -> Prop) (fixed : W -> bytes) (cont : W -> Container) (conv : W -> bytes -> R)
    (view : R -> bytes) : Prop :=
  mgmt_type W R t i subtype ok fixed cont conv False /\ forall w es, view (conv w es) = es.
(** a type of elements whose values [v] with [ok v] can be announced; they are read as [conv v] *)
Definition can_announce {V X} (e : ElementType V X) (ok : V -> Prop) (conv : V -> X) : Prop := lookup_id (et_id e) /\ NoPanic (et_read e) /\ RoundTrip e ok conv.

Section Type_.
Context {V X : Type} (e : ElementType V X) (okv : V -> Prop) (convv : V -> X).
(** ** The listener looks the element up in the frames it is interested in and remembers the result with the address of the sender *)
Notation Told := (option (bytes * Res serr (option X))).
Definition hear {R} (view : R -> bytes) (f : MgmtHeader * R) : Told := Some (mh_ta (fst f), get_first_element e (view (snd f))).
Definition remembers (l : list (nat * Arm Told)) (air : list bytes) (a : bytes) : Res serr (option (Res serr (option X))) :=
  told <- station (map snd l) air ;; Ok (latest a (somes told)).
(** ** [announces l a v f]: the station with address [a] wrote [f], a frame that interests the listener, with any elements; [v] is the first of type [e] among them, if any *)
Inductive announces (l : list (nat * Arm Told)) (a : bytes) : option V -> bytes -> Prop :=
| says_so : forall W R (t : BodyType W R) i subtype ok fixed cont conv view h w c raws vs buf buf' n,
    with_elements t i subtype ok fixed cont conv view -> In (i, mkArm _ _ (mgmt_kind t) (rd_mgmt t) (hear view)) l ->
    ok_mgmt_header h -> mh_ta h = a -> ok w -> cont w = c_chain c ->
    Forall2 item_element (chain_items c) raws -> Forall wf_item (chain_items c) -> Forall fits raws -> end_visible raws [] -> wf_bytes (enc_elements raws) ->
    holds_values e okv (chain_items c) vs ->
    length (enc_frame true (enc_mgmt subtype h (fixed w ++ enc_elements raws))) + slack <= length buf ->
    wr_mgmt t h w true buf = Ok (buf', n) -> announces l a (hd_error (somes vs)) (firstn n buf').
(** ** What is on the air: announcements, by whom and as often as they like; other frames; damaged copies of all of them. [said] are the announcements that arrive. *)
Inductive on_the_air (l : list (nat * Arm Told)) : list bytes -> list (bytes * option V) -> Prop :=
| air_empty : on_the_air l [] []
| air_said : forall a v f air said, announces l a v f -> on_the_air l air said -> on_the_air l (f :: air) ((a, v) :: said)
| air_other : forall f air said, sent l f None -> on_the_air l air said -> on_the_air l (f :: air) said
| air_damaged : forall a v f b air said, announces l a v f -> damaged f b -> on_the_air l air said -> on_the_air l (b :: air) said
| air_damaged_other : forall f b air said, sent l f None -> damaged f b -> on_the_air l air said -> on_the_air l (b :: air) said.
End Type_.
End Spec.
