(** Power saving: an access point that holds frames for dozing stations, and a station that listens to its beacons. *)
From Verif Require Import Base SpecBase Bits Layouts Enums Common Elements SpecElements SpecElementTypes Tim SpecTim Mgmt SpecMgmt Generic SpecGeneric.

(** ** What happens at the access point, in order *)
Inductive Event :=
| Queued (aid : nat)    (** a frame for this station is put in the queue; 0: for all stations *)
| Fetched (aid : nat)   (** the station has fetched its frames; 0: the group frames have been sent *)
| BeaconTime.
(** For whom frames are waiting at each beacon *)
Fixpoint at_beacons (waiting : list nat) (history : list Event) : list (list nat) :=
  match history with
  | [] => []
  | Queued a :: rest => at_beacons (a :: waiting) rest
  | Fetched a :: rest => at_beacons (filter (fun b => negb (b =? a)) waiting) rest
  | BeaconTime :: rest => waiting :: at_beacons waiting rest
  end.
(** a frame was queued for this station and not fetched since *)
Definition pending (aid : nat) (history : list Event) : Prop :=
  exists before after, history = before ++ Queued aid :: after /\ ~ In (Fetched aid) after.
Fixpoint beacons_in (history : list Event) : nat :=
  match history with [] => 0 | BeaconTime :: rest => S (beacons_in rest) | _ :: rest => beacons_in rest end.
Definition known_stations (history : list Event) : Prop :=
  Forall (fun e => match e with Queued a => a <= 2007 | _ => True end) history.
Definition waits (waiting : list nat) (aid : nat) : bool := existsb (Nat.eqb aid) waiting.

(** ** The access point *)
(** what is in a beacon besides the TIM, and the buffer it is written into *)
Record BeaconSetup := mkBS {
  bs_header : MgmtHeader; bs_time : N; bs_interval : N; bs_capabilities : N;
  bs_front : list RawElement; bs_back : list RawElement; bs_fcs : bool; bs_buffer : bytes;
  bs_count : N; bs_period : N }.
Definition other_element (e : RawElement) : Prop := (re_type e < 256)%N /\ re_type e <> 5%N /\ wf_bytes (re_slice e) /\ length (re_slice e) <= 255.
(** admissible values and room for the longest TIM *)
Definition ok_setup {cfg : Cfg} (s : BeaconSetup) : Prop :=
  ok_mgmt_header (bs_header s) /\ u64 (bs_time s) /\ u16 (bs_interval s) /\ u16 (bs_capabilities s) /\
  Forall other_element (bs_front s) /\ Forall other_element (bs_back s) /\ end_visible (bs_back s) [] /\
  (bs_count s <= bs_period s)%N /\ (bs_period s < 256)%N /\
  length (enc_elements (bs_front s)) + length (enc_elements (bs_back s)) + 310 <= length (bs_buffer s).
Section PowerSave.
Context {cfg : Cfg}.
(** [element_chain! { front, tim, back }] *)
Definition beacon_chain (s : BeaconSetup) (t : TIM) : Chain :=
  match bs_front s with
  | [] => chain_of (Typed (elem_of TIMElement t)) (map RawItem (bs_back s))
  | e :: front => chain_of (RawItem e) (map RawItem front ++ Typed (elem_of TIMElement t) :: map RawItem (bs_back s))
  end.
(** the bytes on the air *)
Definition send_beacon (s : BeaconSetup) (tb : TIMBitmap) : Res serr bytes :=
  '(buffer, n) <- wr_mgmt Beacon (bs_header s)
      (mkBeacon (bs_time s) (bs_interval s) (bs_capabilities s) (c_chain (beacon_chain s (mkTIM (bs_count s) (bs_period s) (Some tb))))) (bs_fcs s) (bs_buffer s) ;;
  Ok (firstn n buffer).
(** Two ways to make the bitmap at run time. The access point keeps the whole virtual bitmap, *)
Definition mark (m : bytes) (aid : nat) : bytes :=
  firstn (aid / 8) m ++ N.lor (nth (aid / 8) m 0%N) (2 ^ N.of_nat (aid mod 8)) :: skipn (S (aid / 8)) m.
Definition whole_map (waiting : list nat) : Res serr TIMBitmap :=
  x <- tb_new_raw (lsetb TIMBitmapControl_layout "traffic_indicator" (waits waiting 0) 0)
         (Some (BSlice (fold_left mark waiting (repeat 0%N 251)))) ;;
  match x with Some tb => Ok tb | None => Panic end.
(** or leaves it to [TIMBitmap::new_static]. *)
Definition static_map (waiting : list nat) : Res serr TIMBitmap :=
  tb_new_static (waits waiting 0)
    (flat_map (fun a => match aid_new_checked (N.of_nat a) with Some x => [x] | None => [] end) (filter (fun a => negb (a =? 0)) waiting)).

(** ** The station *)
(** the block of its beacon arm: are there group frames, are there frames for me? *)
Definition listen (aid : nat) (beacon : MgmtHeader * BeaconLikeBody bytes) : option (bool * bool) :=
  match get_first_element TIMElement (bb_elements (snd beacon)) with
  | Ok (Some t) =>
    match te_bitmap t with
    | Some tb => match tb_aid_iter tb with
                 | Ok (Some l) => Some (tb_traffic tb, waits (numbers l) aid)
                 | Ok None => Some (tb_traffic tb, false)
                 | _ => None
                 end
    | None => Some (false, false)
    end
  | _ => None
  end.
(** its [match_frames!], with whatever other arms *)
Definition listens (l : list (nat * Arm (option (bool * bool)))) (aid : nat) : Prop :=
  typed_arms l /\ In (0, mkArm _ _ (mgmt_kind Beacon) (rd_mgmt Beacon) (listen aid)) l.
Definition hear (l : list (nat * Arm (option (bool * bool)))) (s : BeaconSetup) (make : list nat -> Res serr TIMBitmap) (waiting : list nat)
  : Res serr (option (bool * bool)) :=
  tb <- make waiting ;; frame <- send_beacon s tb ;; match_frames frame (if bs_fcs s then Some true else None) (map snd l).
(** what it hears, beacon after beacon *)
Fixpoint hears (l : list (nat * Arm (option (bool * bool)))) (setups : nat -> BeaconSetup) (make : list nat -> Res serr TIMBitmap) (k : nat) (beacons : list (list nat))
  : list (Res serr (option (bool * bool))) :=
  match beacons with
  | [] => []
  | waiting :: rest => hear l (setups k) make waiting :: hears l setups make (S k) rest
  end.
End PowerSave.
