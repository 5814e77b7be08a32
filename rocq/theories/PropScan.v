(** Theorems about a scan. *)
From Verif Require Import Base SpecBase Elements SpecElements Rsn SpecRsn Mgmt SpecMgmt Generic SpecGeneric SpecNoise SpecScan ScanFacts ScanFacts2.

(** ** C88: a scan finds the networks around *)
(** Whatever is on the air, for however long, of however many networks: the table of the scanner has one entry for every address of which it has heard an
    intact beacon or probe response, and none besides; the entry tells the SSID, the channel and the security of the latest of them. Damaged frames and
    frames of other types change nothing. *)
Theorem C88_scan_partial : forall (cfg : Cfg) l air news, scans l -> heard l air news -> exists table, scan l air = Ok table /\ up_to_date table news.
Proof. exact @scanned. Qed.
Print Assumptions C88_scan_partial.
(** Every network that can be carried can be announced, in every order of the elements. *)
Theorem C88_announce : forall (cfg : Cfg) nw layout, ok_network nw -> carried nw -> address (nw_bssid nw) -> layout_of nw layout ->
  end_visible (map (raw_item nw) layout) [] -> exists f, announces nw f.
Proof. exact @can_announce. Qed.
Print Assumptions C88_announce.
(** Six arrivals: a beacon of a protected network, a damaged copy of it, a beacon of an open one, a probe response of the first, now on another channel,
    the damaged copy and the second one again. *)
Example C88_ex : forall (cfg : Cfg), scans ex_arms /\ heard ex_arms ex_air [home 1; cafe; home 6; cafe] /\ exists r, shows r home_security /\
  scan ex_arms ex_air = Ok [(repeat 6%N 6, mkEntry (Some [67; 97; 102; 195; 169]%N) (Some 11%N) None); (repeat 2%N 6, mkEntry (Some [72; 111; 109; 101]%N) (Some 6%N) (Some r))].
Proof. exact (fun cfg => conj ex_scans (conj ex_heard ex_table)). Qed.
(** Missing is what C17 lacks: on big endian machines the scanner is told wrong capabilities, *)
Theorem C88_big_endian_refuted : forall (cfg : Cfg), native_le = false -> ok_network caps_network /\ exists f e, announces caps_network f /\
  scan ex_arms [f] = Ok [(nw_bssid caps_network, e)] /\ option_map rsn_caps (en_rsn e) = Some (Some 0x8000%N) /\ ~ tells e caps_network.
Proof. exact @caps_misread. Qed.
Print Assumptions C88_big_endian_refuted.
(** and a network that announces a PMKID may appear without its SSID. *)
Theorem C88_pmkid_refuted : forall (cfg : Cfg), ok_network pmkid_network /\ exists f e, announces pmkid_network f /\
  scan ex_arms [f] = Ok [(nw_bssid pmkid_network, e)] /\ en_ssid e = None.
Proof. exact @pmkid_hides_network. Qed.
Print Assumptions C88_pmkid_refuted.
