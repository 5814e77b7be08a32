(** A scan: a receiver that collects the networks announced around it. *)
From Verif Require Import Base SpecBase Enums Common Elements SpecElements ElementTypes SpecElementTypes Suites Rsn SpecRsn Mgmt SpecMgmt Generic SpecGeneric
  SpecDelivery SpecNoise.

(** ** Networks and their announcements *)
Record Network := mkNetwork { nw_bssid : bytes; nw_ssid : bytes; nw_channel : N; nw_security : option RsnView }.
(** what an announcement is put together from, in any order and number *)
Inductive NetItem :=
| ISsid
| IChannel
| ISecurity (x : Rsn)
| IOther (e : RawElement).
(** elements of any other type *)
Definition unrelated (e : RawElement) : Prop := (re_type e < 256)%N /\ ~ In (re_type e) [0; 3; 48]%N /\ wf_bytes (re_slice e) /\ length (re_slice e) <= 255.

Section Spec.
Context {cfg : Cfg}.
(** admissible descriptions *)
Definition ok_security (v : RsnView) : Prop := ok_view v /\ gap_free v /\ length (enc_rsn 1 v) <= 255 /\ end_not_empty_list v.
Definition ok_network (nw : Network) : Prop :=
  ok_ssid (nw_ssid nw) /\ end_ok (nw_ssid nw) /\ (nw_channel nw < 256)%N /\
  match nw_security nw with Some v => ok_security v | None => True end.
(** those the crate can carry (C17): no PMKIDs, and on big endian machines no RSN capabilities *)
Definition carried (nw : Network) : Prop :=
  match nw_security nw with Some v => pmkid_count v = 0 /\ caps_readable v | None => True end.
(** the layout tells the SSID, the channel and, if there is one, the security of the network, and nothing else about them *)
Definition layout_of (nw : Network) (layout : list NetItem) : Prop :=
  In ISsid layout /\ In IChannel layout /\ (nw_security nw <> None -> exists x, In (ISecurity x) layout) /\
  Forall (fun i => match i with
    | ISecurity x => exists v, nw_security nw = Some v /\ shows x v
    | IOther e => unrelated e
    | _ => True end) layout.
(** the items of the chain, and the elements of the standard they stand for *)
Definition chain_item (nw : Network) (i : NetItem) : ChainItem :=
  match i with
  | ISsid => Typed (elem_of SSIDElement (nw_ssid nw))
  | IChannel => Typed (elem_of DSSSParameterSetElement (nw_channel nw))
  | ISecurity x => Typed (elem_of RsnElement x)
  | IOther e => RawItem e
  end.
Definition raw_item (nw : Network) (i : NetItem) : RawElement :=
  match i with
  | ISsid => mkRaw 0 (nw_ssid nw)
  | IChannel => mkRaw 3 [nw_channel nw]
  | ISecurity _ => mkRaw 48 (match nw_security nw with Some v => enc_rsn 1 v | None => [] end)
  | IOther e => e
  end.
(** [announces nw f]: the access point of [nw] wrote [f], a beacon or a probe response with frame check sequence, into a large enough buffer *)
Definition announces (nw : Network) (f : bytes) : Prop :=
  exists (probed : bool) h time interval caps layout first rest buf buf' n,
    ok_mgmt_header h /\ mh_bssid h = nw_bssid nw /\ u64 time /\ u16 interval /\ u16 caps /\
    layout_of nw layout /\ layout = first :: rest /\ end_visible (map (raw_item nw) layout) [] /\
    let body := mkBeacon time interval caps (c_chain (chain_of (chain_item nw first) (map (chain_item nw) rest))) in
    length (enc_frame true (enc_mgmt (if probed then 5 else 8) h (fixed_beacon body ++ enc_elements (map (raw_item nw) layout)))) + slack <= length buf /\
    wr_mgmt (if probed then ProbeResponse else Beacon) h body true buf = Ok (buf', n) /\ f = firstn n buf'.

(** ** The scanner *)
Record Entry := mkEntry { en_ssid : option bytes; en_channel : option N; en_rsn : option Rsn }.
(** the block of both arms: who is it, and what is in the frame *)
Definition see (frame : MgmtHeader * BeaconLikeBody bytes) : option (bytes * Entry) :=
  match beacon_ssid (snd frame), get_first_element DSSSParameterSetElement (bb_elements (snd frame)), get_first_element RsnElement (bb_elements (snd frame)) with
  | Ok s, Ok c, Ok r => Some (mh_bssid (fst frame), mkEntry s c r)
  | _, _, _ => None
  end.
(** its [match_frames!], with whatever other arms *)
Definition scans (l : list (nat * Arm (option (bytes * Entry)))) : Prop :=
  typed_arms l /\ In (0, mkArm _ _ (mgmt_kind Beacon) (rd_mgmt Beacon) see) l /\ In (1, mkArm _ _ (mgmt_kind ProbeResponse) (rd_mgmt ProbeResponse) see) l.
(** the table: a new sighting replaces the old one *)
Definition same_address (a b : bytes) : bool := if list_eq_dec N.eq_dec a b then true else false.
Definition note (table : list (bytes * Entry)) (s : option (bytes * Entry)) : list (bytes * Entry) :=
  match s with
  | Some (b, e) => (b, e) :: filter (fun x => negb (same_address (fst x) b)) table
  | None => table
  end.
Definition scan (l : list (nat * Arm (option (bytes * Entry)))) (air : list bytes) : Res serr (list (bytes * Entry)) :=
  seen <- station (map snd l) air ;; Ok (fold_left note seen []).

(** ** What is on the air *)
(** [heard l air news]: [air] arrives: announcements (of [news], in this order), other frames, and damaged copies of all of them *)
Inductive heard (l : list (nat * Arm (option (bytes * Entry)))) : list bytes -> list Network -> Prop :=
| heard_nothing : heard l [] []
| heard_network : forall nw f air news, ok_network nw -> carried nw -> announces nw f -> heard l air news -> heard l (f :: air) (nw :: news)
| heard_other : forall f air news, sent l f None -> heard l air news -> heard l (f :: air) news
| heard_damaged : forall nw f b air news, ok_network nw -> carried nw -> announces nw f -> damaged f b -> heard l air news -> heard l (b :: air) news
| heard_damaged_other : forall f b air news, sent l f None -> damaged f b -> heard l air news -> heard l (b :: air) news.
(** the last announcement with this address *)
Fixpoint latest (bssid : bytes) (news : list Network) : option Network :=
  match news with
  | [] => None
  | nw :: rest => match latest bssid rest with Some x => Some x | None => if list_eq_dec N.eq_dec (nw_bssid nw) bssid then Some nw else None end
  end.
(** an entry that tells what the network announces *)
Definition tells (e : Entry) (nw : Network) : Prop :=
  en_ssid e = Some (nw_ssid nw) /\ en_channel e = Some (nw_channel nw) /\
  match nw_security nw, en_rsn e with Some v, Some y => shows y v | None, None => True | _, _ => False end.
(** no two entries for an address, and an entry for exactly the addresses heard, which tells the latest news *)
Definition up_to_date (table : list (bytes * Entry)) (news : list Network) : Prop :=
  NoDup (map fst table) /\
  forall bssid, match latest bssid news with
    | Some nw => exists e, In (bssid, e) table /\ tells e nw
    | None => ~ In bssid (map fst table)
    end.
End Spec.
