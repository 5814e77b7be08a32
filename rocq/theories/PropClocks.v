(** C97: stations of an ad hoc network agree on the time. The specification is SpecClocks.v. *)
From Verif Require Import Base SpecBase SpecElementTypes Mgmt SpecMgmt Generic SpecGeneric SpecNoise SpecClocks ClocksFacts ClocksFacts2.

(** However long it goes on, whatever is lost or damaged, and whatever others send in between: no station panics, and afterwards the clock of every station
    is exactly the latest of those whose time has come to it, directly or through others. *)
Theorem C97_known : forall (cfg : Cfg) l network o air told, typed_arms l -> In (beacon_arm network) l -> history l network o air told ->
  exists o', network_runs (map snd l) o air = Ok o' /\
    forall b, (exists a, came_to told a b /\ o' b = o a) /\ forall a, came_to told a b -> (o a <= o' b)%N.
Proof. exact @clocks_known. Qed.
Print Assumptions C97_known.
(** So no clock is ever set back or beyond the one that was ahead of all others, and all stations to which its time has come agree. *)
Theorem C97_agree : forall (cfg : Cfg) l network o air told first, typed_arms l -> In (beacon_arm network) l -> history l network o air told ->
  (forall s, (o s <= o first)%N) ->
  exists o', network_runs (map snd l) o air = Ok o' /\
    forall b, (o b <= o' b <= o first)%N /\ (came_to told first b -> o' b = o first).
Proof. exact @clocks_agree. Qed.
Print Assumptions C97_agree.
(** A beacon can be sent whatever the clock shows, as long as it has 64 bits. *)
Theorem C97_can : forall (cfg : Cfg) network timestamp, address network -> u64 timestamp -> exists f, beacon_at network timestamp f.
Proof. exact @can_beacon. Qed.
Print Assumptions C97_can.
(** The third station gets the beacon of the second, which is ahead, only damaged, and does not take the time of a stranger; it gets the time through the first. *)
Example C97_ex : forall (cfg : Cfg), typed_arms [beacon_arm our_network] /\ In (beacon_arm our_network) [beacon_arm our_network] /\
  history [beacon_arm our_network] our_network three_clocks three_air [(1, [0]); (0, [1; 2])] /\ (forall s, (three_clocks s <= three_clocks 1%nat)%N) /\
  came_to [(1, [0]); (0, [1; 2])] 1 2.
Proof.
  intros cfg. split; [exact ours_typed|]. split; [now left|]. split; [exact three_history|]. split.
  - intros s. do 3 (destruct s as [|s]; [cbn; lia|]). cbn. lia.
  - right. split; [reflexivity|]. exists 0. split; [now left|]. right. split; [reflexivity|]. exists 2. split; [right; now left|reflexivity].
Qed.
Example C97_run_ex : forall (cfg : Cfg), match network_runs (map snd [beacon_arm our_network]) three_clocks three_air with Ok o => Ok (map o [0; 1; 2; 3]) | Err e => Err e | Panic => Panic end
  = Ok [900; 900; 900; 0]%N.
Proof. intros cfg. destruct cfg as [[] [] []]; vm_compute; reflexivity. Qed.
