(** C93: two sides of a link know which rates they have in common. The specification is SpecRates.v. *)
From Verif Require Import Base SpecBase Elements SpecElements ElementTypes Mgmt SpecMgmt Generic SpecGeneric SpecNoise SpecRates RatesFacts RatesFacts2.

(** Whatever is on the air, for however long: a listener knows the rates of exactly those stations of which it has heard an undamaged beacon or association request, all of
    them and in their order, however they are spread over the two elements and wherever in the frame these are. *)
Theorem C93_known : forall (cfg : Cfg) rates_of l air who a, listens l -> talk rates_of l air who ->
  (In a who -> knows l air a = Ok (Some (rates_of a))) /\ (~ In a who -> knows l air a = Ok None).
Proof. exact @known. Qed.
Print Assumptions C93_known.
(** So two stations that have heard each other, each on its own channel with its own losses, agree about the speeds they have in common, these are the ones they really
    have in common, and who asks whether it has all the basic rates of the other decides rightly. *)
Theorem C93_agree : forall (cfg : Cfg) rates_of l1 l2 air1 air2 who1 who2 a b, ok_rate_list (rates_of a) -> ok_rate_list (rates_of b) ->
  listens l1 -> listens l2 -> talk rates_of l1 air1 who1 -> talk rates_of l2 air2 who2 -> In b who1 -> In a who2 ->
  exists rb ra, knows l1 air1 b = Ok (Some rb) /\ knows l2 air2 a = Ok (Some ra) /\
    (forall v, In v (common (rates_of a) rb) <-> in_common (rates_of a) (rates_of b) v) /\
    (forall v, In v (common (rates_of a) rb) <-> In v (common (rates_of b) ra)) /\
    (joins (rates_of a) rb = true <-> may_join (rates_of a) (rates_of b)).
Proof. exact @agreement. Qed.
Print Assumptions C93_agree.
(** Every list of up to 259 rates can be told, and the constructors of the two elements accept no longer ones. *)
Theorem C93_can_say : forall (cfg : Cfg) a rates layout, address a -> ok_rate_list rates -> rate_layout rates layout -> end_visible (map (raw_rates rates) layout) [] ->
  exists f, says a rates f.
Proof. exact @can_say. Qed.
Print Assumptions C93_can_say.
Theorem C93_limit : forall (cfg : Cfg) rates, wf_bytes rates -> (length rates <= 259 <-> exists x y, rate_item rates RFirst = Some x /\ rate_item rates RMore = Some y).
Proof. exact @limit. Qed.
Print Assumptions C93_limit.
(** An access point with twelve rates, the last four in front of the others in its beacons, and a station with seven. *)
Example C93_ex : forall (cfg : Cfg), ok_rate_list (ex_rates_of (repeat 4%N 6)) /\ ok_rate_list (ex_rates_of (repeat 2%N 6)) /\ listens rate_arms /\
  talk ex_rates_of rate_arms [bad_beacon; ap_beacon] [repeat 2%N 6] /\ talk ex_rates_of rate_arms [sta_request; sta_request] [repeat 4%N 6; repeat 4%N 6].
Proof. exact @ex_talk. Qed.
Example C93_known_ex : forall (cfg : Cfg), knows rate_arms [bad_beacon; ap_beacon] (repeat 2%N 6) = Ok (Some ap_rates) /\
  common sta_rates ap_rates = [1000; 2000; 5500; 11000; 24000; 36000]%N /\ joins sta_rates ap_rates = true /\ joins [0x30; 0x48]%N ap_rates = false.
Proof. exact @ex_known. Qed.
