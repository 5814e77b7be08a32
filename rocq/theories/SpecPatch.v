(** Changing fields of a frame in place, at the offsets of IEEE Std 802.11-2020, 9.3.2.1 and 9.3.3.1, written without the code. *)
From Verif Require Import Base SpecBase Common Mgmt SpecElementTypes SpecMgmt Data SpecData.

(** The bytes [new] stored at [off]; what is not covered stays. *)
Definition patch (off : nat) (new bs : bytes) : bytes := firstn off bs ++ new ++ skipn (off + length new) bs.

(** A change of one field all management and data frames have in the same place. *)
Inductive Change :=
| SetFlags (flags : N) | SetDuration (duration : N) | SetAddress1 (a : bytes) | SetAddress2 (a : bytes) | SetAddress3 (a : bytes) | SetSequence (seq : N).
Definition change_offset (c : Change) : nat :=
  match c with SetFlags _ => 1 | SetDuration _ => 2 | SetAddress1 _ => 4 | SetAddress2 _ => 10 | SetAddress3 _ => 16 | SetSequence _ => 22 end.
Definition change_bytes (c : Change) : bytes :=
  match c with SetFlags f => [f] | SetDuration d => le_bytes 2 d | SetAddress1 a | SetAddress2 a | SetAddress3 a => a | SetSequence s => le_bytes 2 s end.
(** the value fits into the field *)
Definition change_ok (c : Change) : Prop :=
  match c with SetFlags f => u8 f | SetDuration d => u16 d | SetAddress1 a | SetAddress2 a | SetAddress3 a => address a | SetSequence s => u16 s end.
(** in the stored frame *)
Definition change_frame (c : Change) (frame : bytes) : bytes := patch (change_offset c) (change_bytes c) frame.

(** in the header of a management frame (addresses: receiver, transmitter, BSSID) *)
Definition change_mgmt (c : Change) (h : MgmtHeader) : MgmtHeader :=
  match c, h with
  | SetFlags f, mkMH _ d ra ta bssid s ht => mkMH f d ra ta bssid s ht
  | SetDuration d, mkMH f _ ra ta bssid s ht => mkMH f d ra ta bssid s ht
  | SetAddress1 a, mkMH f d _ ta bssid s ht => mkMH f d a ta bssid s ht
  | SetAddress2 a, mkMH f d ra _ bssid s ht => mkMH f d ra a bssid s ht
  | SetAddress3 a, mkMH f d ra ta _ s ht => mkMH f d ra ta a s ht
  | SetSequence s, mkMH f d ra ta bssid _ ht => mkMH f d ra ta bssid s ht
  end.
(** in the header of a data frame *)
Definition change_data (c : Change) (h : DataHeader) : DataHeader :=
  match c, h with
  | SetFlags f, mkDH t _ d a1 a2 a3 s a4 q ht => mkDH t f d a1 a2 a3 s a4 q ht
  | SetDuration d, mkDH t f _ a1 a2 a3 s a4 q ht => mkDH t f d a1 a2 a3 s a4 q ht
  | SetAddress1 a, mkDH t f d _ a2 a3 s a4 q ht => mkDH t f d a a2 a3 s a4 q ht
  | SetAddress2 a, mkDH t f d a1 _ a3 s a4 q ht => mkDH t f d a1 a a3 s a4 q ht
  | SetAddress3 a, mkDH t f d a1 a2 _ s a4 q ht => mkDH t f d a1 a2 a s a4 q ht
  | SetSequence s, mkDH t f d a1 a2 a3 _ a4 q ht => mkDH t f d a1 a2 a3 s a4 q ht
  end.
(** New flags announce the same optional fields: the HT control field (bit 7) and, in data frames, the fourth address (bits 0 and 1). *)
Definition same_mgmt_fields (c : Change) (flags : N) : Prop :=
  match c with SetFlags f => N.testbit f 7 = N.testbit flags 7 | _ => True end.
Definition same_data_fields (c : Change) (flags : N) : Prop :=
  match c with
  | SetFlags f => N.testbit f 7 = N.testbit flags 7 /\ N.testbit f 0 && N.testbit f 1 = N.testbit flags 0 && N.testbit flags 1
  | _ => True
  end.
(** numbers of two bytes *)
Definition is_number (c : Change) : Prop := match c with SetDuration _ | SetSequence _ => True | _ => False end.

(** The same outcome with another value. *)
Definition outcome_map {A B} (f : A -> B) (r : Res serr A) : Res serr B :=
  match r with Ok x => Ok (f x) | Err e => Err e | Panic => Panic end.
(** A change of a frame, in a buffer of which the first [n] bytes are the frame: its frame check sequence is brought up to date. *)
Definition revise (fcs : bool) (f : bytes -> bytes) (sent : bytes * nat) : bytes * nat :=
  let '(buf, n) := sent in
  (enc_frame fcs (f (firstn (n - if fcs then 4 else 0) buf)) ++ skipn n buf, n).
Definition change_sent (fcs : bool) (c : Change) : bytes * nat -> bytes * nat := revise fcs (change_frame c).

(** The timestamp of beacons and probe responses is the first field behind the header (9.3.3.2). *)
Definition set_time {E} (time : N) (b : BeaconLikeBody E) : BeaconLikeBody E :=
  mkBeacon time (bb_interval b) (bb_capabilities b) (bb_elements b).
Definition change_time (time : N) (frame : bytes) : bytes :=
  patch (if N.testbit (nth 1 frame 0%N) 7 then 28 else 24) (le_bytes 8 time) frame.

(** Several changes, one after the other. *)
Definition change_frames (cs : list Change) (frame : bytes) : bytes := fold_left (fun f c => change_frame c f) cs frame.
Definition change_mgmts (cs : list Change) (h : MgmtHeader) : MgmtHeader := fold_left (fun h c => change_mgmt c h) cs h.
Definition change_datas (cs : list Change) (h : DataHeader) : DataHeader := fold_left (fun h c => change_data c h) cs h.
