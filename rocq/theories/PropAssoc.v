(** Theorems about association. *)
From Verif Require Import Base SpecBase Common Elements Mgmt SpecMgmt Generic SpecGeneric SpecNoise Tim SpecTim SpecPowerSave SpecAssoc AssocFacts AssocFacts2.

(** ** C89: stations and access point agree on the association IDs *)
(** Whoever asks how often, whatever is lost, damaged, delayed, repeated or sent by others in between, and however the access point chooses free IDs: no ID is
    given twice, and a station that believes to have an ID has been given it by the access point; no two stations believe in the same one. *)
Theorem C89_agree : forall (cfg : Cfg) l pick bss es w, listening l -> chooses pick -> address bss -> runs l pick bss nobody es w ->
  sound_table (w_table w) /\ (forall sta a, believes w sta = Some a -> find_station sta (w_table w) = Some a) /\
  (forall s t a, believes w s = Some a -> believes w t = Some a -> s = t).
Proof. exact @agree. Qed.
Print Assumptions C89_agree.
(** Nothing that can happen stops them with an error or a panic. *)
Theorem C89_goes_on : forall (cfg : Cfg) l pick bss es w e, listening l -> chooses pick -> address bss -> runs l pick bss nobody es w -> possible l w e ->
  exists w1, step l pick bss w e = Ok w1.
Proof. exact @goes_on. Qed.
Print Assumptions C89_goes_on.
(** A station that has asked has its ID as soon as the request and the response get through, unless there are no IDs left; *)
Theorem C89_served : forall (cfg : Cfg) l pick bss, listening l -> chooses pick -> address bss -> forall es w sta s s2,
  runs l pick bss nobody es w -> In (Asks sta s) es -> ok_choice s2 -> find_station sta (w_table w) <> None \/ pick (map snd (w_table w)) <> None ->
  exists f g w2 a, request bss sta s = Ok f /\ runs l pick bss w [ApHears f s2; StaHears sta g] w2 /\ believes w2 sta = Some a.
Proof. exact @served. Qed.
Print Assumptions C89_served.
(** and it never changes. *)
Theorem C89_lasts : forall (cfg : Cfg) l pick bss, listening l -> chooses pick -> address bss -> forall es w es' w' sta a,
  runs l pick bss nobody es w -> runs l pick bss w es' w' -> believes w sta = Some a -> believes w' sta = Some a.
Proof. exact @lasts. Qed.
Print Assumptions C89_lasts.
(** Together with C84: the beacons of an access point that announces the IDs it has given to the stations for which frames wait tell every station whether
    frames wait for it, by its address. *)
Theorem C89_told : forall (cfg : Cfg) l pick bss, listening l -> chooses pick -> address bss -> forall es w sta a waiting aids lb s,
  runs l pick bss nobody es w -> believes w sta = Some a -> Forall2 (fun x n => find_station x (w_table w) = Some n) waiting aids -> listens lb a -> ok_setup s ->
  exists said, hear lb s whole_map aids = Ok (Some (false, said)) /\ (said = true <-> In sta waiting).
Proof. exact @told_by_address. Qed.
Print Assumptions C89_told.
Example C89_ex : forall (cfg : Cfg), listening ex_arms /\ chooses lowest_free /\ address (repeat 2%N 6) /\ exists w,
  runs ex_arms lowest_free (repeat 2%N 6) nobody ex_history w /\
  w_table w = [(repeat 1%N 6, 2); (repeat 3%N 6, 1)] /\ believes w (repeat 1%N 6) = Some 2 /\ believes w (repeat 3%N 6) = Some 1.
Proof. exact (fun cfg => conj ex_listening (conj lowest_free_chooses (conj bss_address ex_runs))). Qed.
