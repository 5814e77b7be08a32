(** Stations that associate with an access point: who has which association ID? *)
From Verif Require Import Base SpecBase Enums Common Elements SpecElements SpecElementTypes Mgmt SpecMgmt Generic SpecGeneric SpecNoise.

(** what the sender of a frame chooses, and the buffer it is written into *)
Record Setup := mkSetup { se_duration : N; se_seq : N; se_caps : N; se_interval : N; se_elements : bytes; se_buffer : bytes }.
Definition ok_choice {cfg : Cfg} (s : Setup) : Prop :=
  u16 (se_duration s) /\ u16 (se_seq s) /\ u16 (se_caps s) /\ u16 (se_interval s) /\ wf_bytes (se_elements s) /\ end_ok (se_elements s) /\
  length (se_elements s) + 35 <= length (se_buffer s).
(** what happens, in order *)
Inductive Happening :=
| Asks (sta : bytes) (s : Setup)      (** the station with this address sends an association request *)
| ApHears (b : bytes) (s : Setup)     (** these bytes arrive at the access point, which may answer *)
| StaHears (sta : bytes) (b : bytes). (** these bytes arrive at this station *)
(** the table of the access point, what the stations believe (the newest in front), and all frames ever sent *)
Record World := mkWorld { w_table : list (bytes * nat); w_known : list (bytes * nat); w_air : list bytes }.
Definition nobody : World := mkWorld [] [] [].
(** what a received frame says *)
Inductive Heard :=
| HRequest (ra ta : bytes)
| HResponse (ra ta : bytes) (aid : option nat)
| HOther.
Definition same (a b : bytes) : bool := if list_eq_dec N.eq_dec a b then true else false.
Definition find_station (sta : bytes) (l : list (bytes * nat)) : option nat := option_map snd (find (fun x => same (fst x) sta) l).

Section Assoc.
Context {cfg : Cfg}.
(** ** Frames *)
Definition request (bss sta : bytes) (s : Setup) : Res serr bytes :=
  '(buffer, n) <- wr_mgmt AssociationRequest (mkMH 0 (se_duration s) bss sta bss (se_seq s) None)
                    (mkAssocReq (se_caps s) (se_interval s) (c_bytes (se_elements s))) true (se_buffer s) ;;
  Ok (firstn n buffer).
Definition response (bss sta : bytes) (s : Setup) (aid : option nat) : Res serr bytes :=
  '(buffer, n) <- wr_mgmt AssociationResponse (mkMH 0 (se_duration s) sta bss bss (se_seq s) None)
                    (mkAssocResp (se_caps s) (match aid with Some _ => St_Success | None => St_DeniedNoMoreStas end)
                       (match aid with Some a => aid_new_checked (N.of_nat a) | None => None end) (c_bytes (se_elements s))) true (se_buffer s) ;;
  Ok (firstn n buffer).
(** the blocks of the arms for the two types *)
Definition hear_request (x : MgmtHeader * AssociationRequestBody bytes) : Heard := HRequest (mh_ra (fst x)) (mh_ta (fst x)).
Definition hear_response (x : MgmtHeader * AssociationResponseBody bytes) : Heard :=
  HResponse (mh_ra (fst x)) (mh_ta (fst x))
    (match ar_status (snd x), ar_aid (snd x) with St_Success, Some a => Some (N.to_nat (aid_aid a)) | _, _ => None end).
(** everybody's [match_frames!], with whatever other arms *)
Definition listening (l : list (nat * Arm Heard)) : Prop :=
  typed_arms l /\ In (4, mkArm _ _ (mgmt_kind AssociationRequest) (rd_mgmt AssociationRequest) hear_request) l /\
  In (5, mkArm _ _ (mgmt_kind AssociationResponse) (rd_mgmt AssociationResponse) hear_response) l.

(** ** The access point and the stations *)
(** how the access point chooses a new ID, given those in use: any way that gives free and admissible ones *)
Definition chooses (pick : list nat -> option nat) : Prop := forall used a, pick used = Some a -> ~ In a used /\ 1 <= a <= 2007.
Definition assign (pick : list nat -> option nat) (table : list (bytes * nat)) (sta : bytes) : list (bytes * nat) * option nat :=
  match find_station sta table with
  | Some a => (table, Some a)
  | None => match pick (map snd table) with Some a => ((sta, a) :: table, Some a) | None => (table, None) end
  end.
Definition step (l : list (nat * Arm Heard)) (pick : list nat -> option nat) (bss : bytes) (w : World) (e : Happening) : Res serr World :=
  match e with
  | Asks sta s => f <- request bss sta s ;; Ok (mkWorld (w_table w) (w_known w) (f :: w_air w))
  | ApHears b s =>
    match match_frames b (Some true) (map snd l) with
    | Ok (HRequest ra sta) =>
      if same ra bss
      then let '(table, aid) := assign pick (w_table w) sta in f <- response bss sta s aid ;; Ok (mkWorld table (w_known w) (f :: w_air w))
      else Ok w
    | Panic => Panic
    | _ => Ok w
    end
  | StaHears sta b =>
    match match_frames b (Some true) (map snd l) with
    | Ok (HResponse ra ta (Some a)) => if same ra sta && same ta bss then Ok (mkWorld (w_table w) ((sta, a) :: w_known w) (w_air w)) else Ok w
    | Panic => Panic
    | _ => Ok w
    end
  end.
(** ** Which histories *)
(** What arrives was sent, at any time before, by one of them, or is other traffic, or is a damaged copy of such a frame. *)
Definition on_air (l : list (nat * Arm Heard)) (w : World) (f : bytes) : Prop := In f (w_air w) \/ sent l f HOther.
Definition genuine (l : list (nat * Arm Heard)) (w : World) (b : bytes) : Prop := on_air l w b \/ exists f, on_air l w f /\ damaged f b.
Definition possible (l : list (nat * Arm Heard)) (w : World) (e : Happening) : Prop :=
  match e with
  | Asks sta s => address sta /\ ok_choice s
  | ApHears b s => genuine l w b /\ ok_choice s
  | StaHears _ b => genuine l w b
  end.
Inductive runs (l : list (nat * Arm Heard)) (pick : list nat -> option nat) (bss : bytes) : World -> list Happening -> World -> Prop :=
| runs_none : forall w, runs l pick bss w [] w
| runs_more : forall w e w1 es w2, possible l w e -> step l pick bss w e = Ok w1 -> runs l pick bss w1 es w2 -> runs l pick bss w (e :: es) w2.
(** what the station believes to be its ID *)
Definition believes (w : World) (sta : bytes) : option nat := find_station sta (w_known w).
(** the access point has given every station at most one ID, no ID twice, and admissible ones *)
Definition sound_table (table : list (bytes * nat)) : Prop :=
  NoDup (map fst table) /\ NoDup (map snd table) /\ Forall (fun a => 1 <= a <= 2007) (map snd table).
End Assoc.
