(** Stations that tell each other their rates, in one or two elements, and work out which they have in common. *)
From Verif Require Import Base SpecBase Bits Layouts Enums Common Elements SpecElements ElementTypes SpecElementTypes Mgmt SpecMgmt Generic SpecGeneric SpecDelivery SpecNoise.

(** ** Rates (9.4.2.3) *)
(** A rate is a byte: bits 0 to 6 are the speed in units of 500 kbit/s, bit 7 says that whoever joins must have it. *)
Definition speed (r : N) : N := (r mod 128 * 500)%N.
Definition is_basic (r : N) : Prop := (128 <= r)%N.
(** what can be told: at least one rate, eight in the first element and 251 in the second *)
Definition ok_rate_list (rates : list N) : Prop := wf_bytes rates /\ 1 <= length rates <= 259.
(** speeds that both lists have *)
Definition in_common (mine theirs : list N) (v : N) : Prop := (exists r, In r mine /\ speed r = v) /\ (exists r, In r theirs /\ speed r = v).
(** somebody with the rates [mine] may join somebody with the rates [theirs] *)
Definition may_join (mine theirs : list N) : Prop := forall r, In r theirs -> is_basic r -> exists r', In r' mine /\ speed r' = speed r.

(** ** What is said *)
Inductive RateItem := RFirst | RMore | ROther (e : RawElement).
(** any element besides those for rates *)
Definition no_rates (e : RawElement) : Prop := (re_type e < 256)%N /\ ~ In (re_type e) [1; 50]%N /\ wf_bytes (re_slice e) /\ length (re_slice e) <= 255.
(** the first eight rates are in a supported rates element, the others, if any, in an extended supported rates element, wherever they are in the frame *)
Definition rate_layout (rates : list N) (layout : list RateItem) : Prop :=
  In RFirst layout /\ (In RMore layout <-> 8 < length rates) /\ Forall (fun i => match i with ROther e => no_rates e | _ => True end) layout.

Section Spec.
Context {cfg : Cfg}.
(** the chain, made with the constructors of the two elements *)
Definition rate_item (rates : list N) (i : RateItem) : option ChainItem :=
  match i with
  | RFirst => option_map (fun l => Typed (elem_of SupportedRatesElement l)) (supported_rates_new (firstn 8 rates))
  | RMore => option_map (fun l => Typed (elem_of ExtendedSupportedRatesElement l)) (extended_supported_rates_new (skipn 8 rates))
  | ROther e => Some (RawItem e)
  end.
(** the elements of the standard *)
Definition raw_rates (rates : list N) (i : RateItem) : RawElement :=
  match i with RFirst => mkRaw 1 (firstn 8 rates) | RMore => mkRaw 50 (skipn 8 rates) | ROther e => e end.
(** [says a rates f]: the station with address [a] wrote [f], a beacon or an association request that tells its rates, with frame check sequence *)
Inductive says (a : bytes) (rates : list N) : bytes -> Prop :=
| says_beacon : forall h time interval caps layout c buf buf' n,
    ok_mgmt_header h -> mh_ta h = a -> u64 time -> u16 interval -> u16 caps ->
    rate_layout rates layout -> map Some (chain_items c) = map (rate_item rates) layout -> end_visible (map (raw_rates rates) layout) [] ->
    length (enc_frame true (enc_mgmt 8 h (fixed_beacon (mkBeacon time interval caps tt) ++ enc_elements (map (raw_rates rates) layout)))) + slack <= length buf ->
    wr_mgmt Beacon h (mkBeacon time interval caps (c_chain c)) true buf = Ok (buf', n) -> says a rates (firstn n buf')
| says_request : forall h caps interval layout c buf buf' n,
    ok_mgmt_header h -> mh_ta h = a -> u16 caps -> u16 interval ->
    rate_layout rates layout -> map Some (chain_items c) = map (rate_item rates) layout -> end_visible (map (raw_rates rates) layout) [] ->
    length (enc_frame true (enc_mgmt 0 h (fixed_assoc_req (mkAssocReq caps interval tt) ++ enc_elements (map (raw_rates rates) layout)))) + slack <= length buf ->
    wr_mgmt AssociationRequest h (mkAssocReq caps interval (c_chain c)) true buf = Ok (buf', n) -> says a rates (firstn n buf').

(** ** The listener *)
(** the rates of an element, if it is there *)
Definition all_of (o : option bytes) : Res serr (list N) := match o with Some bs => rates_collect bs | None => Ok [] end.
(** looks both elements up and iterates them *)
Definition rates_in (elements : bytes) : Res serr (list N) :=
  s <- get_first_element SupportedRatesElement elements ;; x <- get_first_element ExtendedSupportedRatesElement elements ;;
  first <- all_of s ;; more <- all_of x ;; Ok (first ++ more).
Notation Told := (option (bytes * list N)).
Definition learn (a : bytes) (elements : bytes) : Told := match rates_in elements with Ok rates => Some (a, rates) | _ => None end.
Definition from_beacon (f : MgmtHeader * BeaconLikeBody bytes) : Told := learn (mh_ta (fst f)) (bb_elements (snd f)).
Definition from_request (f : MgmtHeader * AssociationRequestBody bytes) : Told := learn (mh_ta (fst f)) (aq_elements (snd f)).
Definition listens (l : list (nat * Arm Told)) : Prop :=
  typed_arms l /\ In (0, mkArm _ _ (mgmt_kind Beacon) (rd_mgmt Beacon) from_beacon) l /\
  In (4, mkArm _ _ (mgmt_kind AssociationRequest) (rd_mgmt AssociationRequest) from_request) l.
(** what it knows of the station [a] after a while: what it heard last *)
Fixpoint last_told (a : bytes) (told : list Told) : option (list N) :=
  match told with
  | [] => None
  | t :: rest => match last_told a rest, t with
    | Some rates, _ => Some rates
    | None, Some (b, rates) => if list_eq_dec N.eq_dec b a then Some rates else None
    | None, None => None
    end
  end.
Definition knows (l : list (nat * Arm Told)) (air : list bytes) (a : bytes) : Res serr (option (list N)) :=
  told <- station (map snd l) air ;; Ok (last_told a told).
(** how it decides with the rates [mine] *)
Definition basic_ones (rates : list N) : list N := filter (lgetb EncodedRate_layout "is_b") rates.
Definition has_speed (rates : list N) (v : N) : bool := existsb (fun r => (rate_in_kbps r =? v)%N) rates.
Definition common (mine theirs : list N) : list N := filter (has_speed theirs) (map rate_in_kbps mine).
Definition joins (mine theirs : list N) : bool := forallb (fun r => has_speed mine (rate_in_kbps r)) (basic_ones theirs).

(** ** What is on the air: what stations say about themselves, where [rates_of] are the rates of each; other frames; and damaged copies of all of them. [who] are
    the addresses heard. *)
Inductive talk (rates_of : bytes -> list N) (l : list (nat * Arm Told)) : list bytes -> list bytes -> Prop :=
| talk_none : talk rates_of l [] []
| talk_said : forall a f air who, ok_rate_list (rates_of a) -> says a (rates_of a) f -> talk rates_of l air who -> talk rates_of l (f :: air) (a :: who)
| talk_other : forall f air who, sent l f None -> talk rates_of l air who -> talk rates_of l (f :: air) who
| talk_damaged : forall a f b air who, ok_rate_list (rates_of a) -> says a (rates_of a) f -> damaged f b -> talk rates_of l air who -> talk rates_of l (b :: air) who
| talk_damaged_other : forall f b air who, sent l f None -> damaged f b -> talk rates_of l air who -> talk rates_of l (b :: air) who.
End Spec.
