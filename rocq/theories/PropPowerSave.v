(** Theorems about power saving. *)
From Verif Require Import Base SpecBase Bits Layouts Common Elements SpecElements Tim SpecTim Mgmt SpecMgmt Generic SpecGeneric SpecPowerSave PowerSaveFacts PowerSaveFacts2.

(** ** C84: a dozing station learns from the beacons whether frames wait for it *)
(** Whatever happens at the access point, whatever else is in its beacons: a station that parses a beacon, looks up the TIM and iterates it
    is told that frames wait for it exactly if one has been queued since it last fetched them; likewise for group frames. The access point
    passes its whole bitmap to [TIMBitmap::new_raw]. *)
Theorem C84_told : forall (cfg : Cfg) l a setups h1 h2, listens l a -> 1 <= a -> (forall k, ok_setup (setups k)) -> known_stations (h1 ++ BeaconTime :: h2) ->
  exists group said, nth_error (hears l setups whole_map 0 (at_beacons [] (h1 ++ BeaconTime :: h2))) (beacons_in h1) = Some (Ok (Some (group, said))) /\
    (group = true <-> pending 0 h1) /\ (said = true <-> pending a h1).
Proof. exact @station_told. Qed.
Print Assumptions C84_told.
(** all beacons at once *)
Theorem C84_history : forall (cfg : Cfg) l a setups history, listens l a -> 1 <= a -> (forall k, ok_setup (setups k)) -> known_stations history ->
  hears l setups whole_map 0 (at_beacons [] history) = map (fun w => Ok (Some (waits w 0, waits w a))) (at_beacons [] history).
Proof. exact @whole_history. Qed.
Print Assumptions C84_history.
Example C84_ex : forall (cfg : Cfg), listens (ex_arms 42) 42 /\ ok_setup ex_setup /\
  hears (ex_arms 42) (fun _ => ex_setup) whole_map 0 (at_beacons [] [BeaconTime; Queued 42; Queued 16; BeaconTime; Fetched 42; Queued 0; BeaconTime]) =
    [Ok (Some (false, false)); Ok (Some (false, true)); Ok (Some (true, false))].
Proof. exact (fun cfg => conj (ex_listens 42) (conj ex_setup_ok ex_heard)). Qed.
(** With a bitmap of [tim_bitmap!] the station with the lowest ID may not be told. *)
Theorem C84_macro_partial : forall (cfg : Cfg) l a s aids low, listens l a -> ok_setup s -> Forall (fun a => a <= 2007) aids -> lowest aids low ->
  exists said, hear l s tim_bitmap_list aids = Ok (Some (waits aids 0, said)) /\ (said = true <-> In a aids /\ a <> 0 /\ a <> 16 * (low / 16)).
Proof. exact @list_beacon. Qed.
Print Assumptions C84_macro_partial.
Example C84_macro_ex : Forall (fun a => a <= 2007) [0; 42; 69; 1337] /\ lowest [0; 42; 69; 1337] 42 /\ 42 <> 16 * (42 / 16).
Proof.
  split; [repeat constructor; lia|]. split; [|cbn; lia]. split; [cbn; auto|]. split; [discriminate|].
  intros a I. cbn in I. lia.
Qed.
(** It starves, however long it waits. *)
Theorem C84_macro_refuted : forall (cfg : Cfg) n,
  hears (ex_arms 16) (fun _ => ex_setup) tim_bitmap_list 0 (at_beacons [] (Queued 16 :: repeat BeaconTime n)) = repeat (Ok (Some (false, false))) n.
Proof. exact @lowest_starves. Qed.
Print Assumptions C84_macro_refuted.
(** So does the only station with frames if the access point uses [TIMBitmap::new_static], *)
Theorem C84_static_refuted : forall (cfg : Cfg) n,
  hears (ex_arms 42) (fun _ => ex_setup) static_map 0 (at_beacons [] (Queued 42 :: repeat BeaconTime n)) = repeat (Ok (Some (false, false))) n.
Proof. exact @static_starves. Qed.
Print Assumptions C84_static_refuted.
(** and the element behind the TIM (here the country) is lost for everybody. *)
Theorem C84_static_next_refuted : forall (cfg : Cfg), exists frame tb, static_map [42] = Ok tb /\ send_beacon ex_setup tb = Ok frame /\
  match_frames frame (Some true) [mkArm _ _ (mgmt_kind Beacon) (rd_mgmt Beacon) (fun x => get_first_element_raw (bb_elements (snd x)) (Id 7))] = Ok (Ok None).
Proof. exact @static_swallows. Qed.
Print Assumptions C84_static_next_refuted.
