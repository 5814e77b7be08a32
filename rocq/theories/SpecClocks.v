(** Stations of an ad hoc network that set their clocks by each other's beacons (IEEE 802.11-2020, 11.1.4 and 11.1.5: the later time wins). *)
From Verif Require Import Base SpecBase Common Elements SpecElements Mgmt SpecMgmt Generic SpecGeneric SpecDelivery SpecNoise.

(** Stations are numbered. All clocks run equally fast, in microseconds: [o s] is how far the clock of station [s] is ahead of an ideal clock that nobody
    can see, so its clock shows [o s + t] when the ideal clock shows [t]. *)
Definition Clocks := nat -> N.
Definition set_clock (o : Clocks) (r : nat) (ahead : N) : Clocks := fun s => if Nat.eq_dec s r then ahead else o s.

Section Spec.
Context {cfg : Cfg}.
(** ** The program of a station: it dispatches what arrives with [match_frames!] with frame check sequence; from beacons of its network it takes the
    timestamp, and if this is later than its clock, the clock is set to it *)
Definition hear_time (network : bytes) (f : MgmtHeader * BeaconLikeBody bytes) : option N :=
  if list_eq_dec N.eq_dec (mh_bssid (fst f)) network then Some (bb_timestamp (snd f)) else None.
Definition beacon_arm (network : bytes) : nat * Arm (option N) := (0, mkArm _ _ (mgmt_kind Beacon) (rd_mgmt Beacon) (hear_time network)).
Definition listen (arms : list (Arm (option N))) (t : N) (o : Clocks) (r : nat) (b : bytes) : Res serr Clocks :=
  match match_frames b (Some true) arms with
  | Ok (Some timestamp) => Ok (set_clock o r (if (o r + t <? timestamp)%N then timestamp - t else o r)%N)
  | Ok None | Err _ => Ok o
  | Panic => Panic
  end.
(** all stations: at time [t], station [r] hears [b], for every [(r, b)] that arrives then *)
Fixpoint listen_all (arms : list (Arm (option N))) (t : N) (o : Clocks) (arriving : list (nat * bytes)) : Res serr Clocks :=
  match arriving with
  | [] => Ok o
  | (r, b) :: rest => o' <- listen arms t o r b ;; listen_all arms t o' rest
  end.
Fixpoint network_runs (arms : list (Arm (option N))) (o : Clocks) (air : list (N * list (nat * bytes))) : Res serr Clocks :=
  match air with
  | [] => Ok o
  | (t, arriving) :: rest => o' <- listen_all arms t o arriving ;; network_runs arms o' rest
  end.

(** ** What is on the air *)
(** [f] is a beacon of the network with this timestamp, by anybody, with any elements, written with frame check sequence *)
Inductive beacon_at (network : bytes) (timestamp : N) : bytes -> Prop :=
| written_at : forall h w es buf buf' n, ok_mgmt_header h -> mh_bssid h = network -> ok_beacon w -> bb_timestamp w = timestamp ->
    wf_bytes es -> Writes (c_write (bb_elements w)) es -> end_ok es ->
    length (enc_frame true (enc_mgmt 8 h (fixed_beacon w ++ es))) + slack <= length buf ->
    wr_mgmt Beacon h w true buf = Ok (buf', n) -> beacon_at network timestamp (firstn n buf').
(** [f] arrives at some of the stations, at some undamaged ([got]), at others damaged, at others not at all *)
Inductive arrives (f : bytes) : list (nat * bytes) -> list nat -> Prop :=
| nowhere : arrives f [] []
| undamaged_at : forall r arriving got, arrives f arriving got -> arrives f ((r, f) :: arriving) (r :: got)
| damaged_at : forall r b arriving got, damaged f b -> arrives f arriving got -> arrives f ((r, b) :: arriving) got.
(** who has heard a time takes it if it is later *)
Fixpoint take_later (ahead : N) (got : list nat) (o : Clocks) : Clocks :=
  match got with
  | [] => o
  | r :: rest => take_later ahead rest (set_clock o r (N.max (o r) ahead))
  end.
(** [history l network o air told]: from time to time a station [s] sends a beacon with what its clock shows then; other frames and beacons of other
    networks are sent in between, by anybody. [told] are the beacons: by whom, and where they arrived undamaged. *)
Inductive history (l : list (nat * Arm (option N))) (network : bytes) : Clocks -> list (N * list (nat * bytes)) -> list (nat * list nat) -> Prop :=
| silence : forall o, history l network o [] []
| beacon_sent : forall o t s f arriving got air told, beacon_at network (o s + t) f -> arrives f arriving got ->
    history l network (take_later (o s) got o) air told -> history l network o ((t, arriving) :: air) ((s, got) :: told)
| other_sent : forall o t f arriving got air told, sent l f None -> arrives f arriving got ->
    history l network o air told -> history l network o ((t, arriving) :: air) told
| strange_beacon_sent : forall o t f network' timestamp arriving got air told, beacon_at network' timestamp f -> network' <> network -> arrives f arriving got ->
    history l network o air told -> history l network o ((t, arriving) :: air) told.
(** the time of [a] has come to [b]: [a] is [b], or has been heard by one from which it came to [b] later *)
Fixpoint came_to (told : list (nat * list nat)) (a b : nat) : Prop :=
  match told with
  | [] => a = b
  | (s, got) :: rest => came_to rest a b \/ a = s /\ exists r, In r got /\ came_to rest r b
  end.
End Spec.
