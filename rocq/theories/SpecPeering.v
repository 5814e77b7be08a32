(** Mesh stations that establish links: do both ends agree on the link IDs? *)
From Verif Require Import Base SpecBase Enums Common Elements SpecElements ElementTypes SpecElementTypes Mgmt SpecMgmt Generic SpecGeneric SpecNoise.

(** what the sender of a frame chooses, and the buffer it is written into *)
Record Choice := mkChoice {
  co_duration : N; co_bssid : bytes; co_seq : N; co_caps : N; co_aid : AssociationID; co_protocol : MeshPeeringProtocolIdentifier; co_pmk : option bytes;
  co_front : list RawElement; co_back : list RawElement; co_buffer : bytes }.
(** elements of any other type *)
Definition no_peering (e : RawElement) : Prop := (re_type e < 256)%N /\ re_type e <> 117%N /\ wf_bytes (re_slice e) /\ length (re_slice e) <= 255.
(** what happens, in order *)
Inductive MeshEvent :=
| Opens (a b : bytes) (s : Choice)     (** the station [a] asks the station [b] for a link *)
| Hears (n : bytes) (f : bytes) (s : Choice).  (** these bytes arrive at the station [n], which may answer *)
(** who has received an open, or a confirm for its own link ID, from whom, with which link ID of the sender; all frames ever sent *)
Record Mesh := mkMesh { m_opened : list (bytes * bytes * N); m_confirmed : list (bytes * bytes * N); m_air : list bytes }.
Definition no_links : Mesh := mkMesh [] [] [].
(** what a received frame says: receiver, transmitter, link IDs *)
Inductive Said :=
| SOpen (ra ta : bytes) (local : N)
| SConfirm (ra ta : bytes) (local peer : N)
| SOther
| SPanic.
Definition is_addr (a b : bytes) : bool := if list_eq_dec N.eq_dec a b then true else false.

Section Peering.
Context {cfg : Cfg}.
Definition ok_chosen (s : Choice) : Prop :=
  u16 (co_duration s) /\ address (co_bssid s) /\ u16 (co_seq s) /\ u16 (co_caps s) /\ ok_aid (co_aid s) /\ ok_proto (co_protocol s) /\ ok_pmk (co_pmk s) /\
  Forall no_peering (co_front s) /\ Forall no_peering (co_back s) /\ end_visible (co_back s) [] /\
  length (enc_elements (co_front s)) + length (enc_elements (co_back s)) + 65 <= length (co_buffer s).
(** ** Frames *)
(** [element_chain! { front, peering, back }] *)
Definition peering_chain (s : Choice) (x : MeshPeering) : Chain :=
  match co_front s with
  | [] => chain_of (Typed (elem_of MeshPeeringElement x)) (map RawItem (co_back s))
  | e :: front => chain_of (RawItem e) (map RawItem front ++ Typed (elem_of MeshPeeringElement x) :: map RawItem (co_back s))
  end.
Definition open_frame (a b : bytes) (local : N) (s : Choice) : Res serr bytes :=
  x <- peering_new_open (co_protocol s) local (co_pmk s) ;;
  '(buffer, n) <- wr_mgmt MeshPeeringOpen (mkMH 0 (co_duration s) b a (co_bssid s) (co_seq s) None) (mkOpen (co_caps s) (c_chain (peering_chain s x))) true (co_buffer s) ;;
  Ok (firstn n buffer).
Definition confirm_frame (a b : bytes) (local peer : N) (s : Choice) : Res serr bytes :=
  x <- peering_new_confirm (co_protocol s) local peer (co_pmk s) ;;
  '(buffer, n) <- wr_mgmt MeshPeeringConfirm (mkMH 0 (co_duration s) b a (co_bssid s) (co_seq s) None)
                    (mkConfirm (co_caps s) (co_aid s) (c_chain (peering_chain s x))) true (co_buffer s) ;;
  Ok (firstn n buffer).
(** the blocks of the arms for the two types *)
Definition hear_open (x : MgmtHeader * MeshOpenBody bytes) : Said :=
  match get_first_element MeshPeeringElement (mo_elements (snd x)) with
  | Ok (Some p) => match parse_as_open p with
                   | Ok (Some q) => SOpen (mh_ra (fst x)) (mh_ta (fst x)) (pp_local q)
                   | Panic => SPanic
                   | _ => SOther
                   end
  | Panic => SPanic
  | _ => SOther
  end.
Definition hear_confirm (x : MgmtHeader * MeshConfirmBody bytes) : Said :=
  match get_first_element MeshPeeringElement (mc_elements (snd x)) with
  | Ok (Some p) => match parse_as_confirm p with
                   | Ok (Some q) => match pp_peer q with Some peer => SConfirm (mh_ra (fst x)) (mh_ta (fst x)) (pp_local q) peer | None => SOther end
                   | Panic => SPanic
                   | _ => SOther
                   end
  | Panic => SPanic
  | _ => SOther
  end.
(** everybody's [match_frames!], with whatever other arms *)
Definition peers (l : list (nat * Arm Said)) : Prop :=
  typed_arms l /\ In (9, mkArm _ _ (mgmt_kind MeshPeeringOpen) (rd_mgmt MeshPeeringOpen) hear_open) l /\
  In (10, mkArm _ _ (mgmt_kind MeshPeeringConfirm) (rd_mgmt MeshPeeringConfirm) hear_confirm) l.

(** ** The stations *)
(** [link a b]: the ID that [a] uses for its link with [b], chosen in any way *)
Definition mesh_step (l : list (nat * Arm Said)) (link : bytes -> bytes -> N) (m : Mesh) (e : MeshEvent) : Res serr Mesh :=
  match e with
  | Opens a b s => f <- open_frame a b (link a b) s ;; Ok (mkMesh (m_opened m) (m_confirmed m) (f :: m_air m))
  | Hears n b s =>
    match match_frames b (Some true) (map snd l) with
    | Ok (SOpen ra ta local) =>
      if is_addr ra n
      then f <- confirm_frame n ta (link n ta) local s ;; Ok (mkMesh ((n, ta, local) :: m_opened m) (m_confirmed m) (f :: m_air m))
      else Ok m
    | Ok (SConfirm ra ta local peer) =>
      if is_addr ra n && (peer =? link n ta)%N then Ok (mkMesh (m_opened m) ((n, ta, local) :: m_confirmed m) (m_air m)) else Ok m
    | Ok SPanic | Panic => Panic
    | _ => Ok m
    end
  end.
(** the link with [b] is established at [a], with [b]'s link ID [x]: both an open and a confirm have been received *)
Definition established (m : Mesh) (a b : bytes) (x : N) : Prop := In (a, b, x) (m_opened m) /\ In (a, b, x) (m_confirmed m).
(** ** Which histories *)
(** What arrives was sent, at any time before, by one of them, or is other traffic, or is a damaged copy of such a frame. *)
Definition in_flight (l : list (nat * Arm Said)) (m : Mesh) (f : bytes) : Prop := In f (m_air m) \/ sent l f SOther.
Definition arrives (l : list (nat * Arm Said)) (m : Mesh) (b : bytes) : Prop := in_flight l m b \/ exists f, in_flight l m f /\ damaged f b.
Definition can_happen (l : list (nat * Arm Said)) (m : Mesh) (e : MeshEvent) : Prop :=
  match e with
  | Opens a b s => address a /\ address b /\ ok_chosen s
  | Hears _ b s => arrives l m b /\ ok_chosen s
  end.
Inductive mesh_runs (l : list (nat * Arm Said)) (link : bytes -> bytes -> N) : Mesh -> list MeshEvent -> Mesh -> Prop :=
| mesh_none : forall m, mesh_runs l link m [] m
| mesh_more : forall m e m1 es m2, can_happen l m e -> mesh_step l link m e = Ok m1 -> mesh_runs l link m1 es m2 -> mesh_runs l link m (e :: es) m2.
End Peering.
