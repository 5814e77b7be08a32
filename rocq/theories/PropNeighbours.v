(** Properties of lookups among other elements (C70). *)
From Verif Require Import Base SpecBase Common Elements SpecElements ElementTypes Rsn Tim Mgmt SpecMgmt SpecCrash SpecNeighbours NeighboursFacts NeighboursFacts2.

(** ** C70 *)
(** [own] determines a list *)
Theorem C70_own : forall id es, lookup_id id -> exists mine, own id es mine /\ forall m, own id es m -> m = mine.
Proof. exact @own_one'. Qed.
Print Assumptions C70_own.
(** Whatever else is received, and in whatever order: only the elements with the identifier asked for, and their order, matter. That
    includes whether the lookup panics. *)
Theorem C70_lookup : forall (cfg : Cfg) (W R : Type) (t : ElementType W R) bs bs' es es' mine, lookup_id (et_id t) ->
  raw_elements bs = Ok es -> raw_elements bs' = Ok es' -> own (et_id t) es mine -> own (et_id t) es' mine ->
  get_first_element t bs = get_first_element t bs' /\ get_matching_elements t bs = get_matching_elements t bs'.
Proof. exact @lookup_own. Qed.
Print Assumptions C70_lookup.
Theorem C70_raw : forall (cfg : Cfg) id bs es mine, lookup_id id -> raw_elements bs = Ok es -> own id es mine ->
  get_matching_elements_raw bs id = Ok mine /\
  get_first_element_raw bs id = Ok (match mine with [] => None | raw :: _ => Some raw end).
Proof. exact @lookup_raw_own. Qed.
Print Assumptions C70_raw.
(** in particular elements can be inserted anywhere *)
Theorem C70_inserted : forall (cfg : Cfg) (W R : Type) (t : ElementType W R) es1 extra es2 tail, lookup_id (et_id t) ->
  Forall fits es1 -> Forall fits extra -> Forall fits es2 -> iteration_end tail ->
  end_visible (es1 ++ es2) tail -> Forall (fun raw => ~ is_element (et_id t) raw) extra ->
  get_first_element t (enc_elements (es1 ++ extra ++ es2) ++ tail) = get_first_element t (enc_elements (es1 ++ es2) ++ tail) /\
  get_matching_elements t (enc_elements (es1 ++ extra ++ es2) ++ tail) = get_matching_elements t (enc_elements (es1 ++ es2) ++ tail).
Proof. exact @inserted_lookup. Qed.
Print Assumptions C70_inserted.
(** an empty element at the very end becomes visible, if scroll refuses empty reads at the end *)
Theorem C70_strict_end_refuted : forall (cfg : Cfg), strict_end = true -> let es1 := [mkRaw 0 []] in let extra := [mkRaw 200 [7%N]] in
  get_first_element_raw (enc_elements es1) (Id 0) <> get_first_element_raw (enc_elements (es1 ++ extra)) (Id 0).
Proof. exact @inserted_strict. Qed.
Print Assumptions C70_strict_end_refuted.
(** In frames: other elements in place of those received leave the header and the fixed fields as they are. *)
Theorem C70_frames : forall (cfg : Cfg),
  Replaceable Beacon bb_elements with_beacon /\ Replaceable ProbeResponse bb_elements with_beacon /\
  Replaceable ProbeRequest pq_elements with_probe /\ Replaceable Authentication au_elements with_auth /\
  Replaceable AssociationRequest aq_elements with_assoc_req /\ Replaceable AssociationResponse ar_elements with_assoc_resp /\
  Replaceable Deauthentication rb_elements with_reason /\ Replaceable Disassociation rb_elements with_reason /\
  Replaceable MeshPeeringOpen mo_elements with_open /\ Replaceable MeshPeeringConfirm mc_elements with_confirm /\
  Replaceable MeshPeeringClose ml_elements with_close.
Proof. exact @replaceable_bodies. Qed.
Print Assumptions C70_frames.

(** SSID, channel, unknown element and the same with the first two exchanged and another one between them *)
Example C70_ex : forall (cfg : Cfg),
  let es := [mkRaw 0 [97; 98]; mkRaw 3 [6]; mkRaw 200 [1; 2; 3]]%N in let es' := [mkRaw 3 [6]; mkRaw 201 [9]; mkRaw 0 [97; 98]; mkRaw 200 [1; 2; 3]]%N in
  raw_elements (enc_elements es) = Ok es /\ raw_elements (enc_elements es' ++ [7]%N) = Ok es' /\
  own (Id 0) es [mkRaw 0 [97; 98]%N] /\ own (Id 0) es' [mkRaw 0 [97; 98]%N] /\
  get_first_element SSIDElement (enc_elements es) = Ok (Some [97; 98]%N) /\
  get_first_element SSIDElement (enc_elements es' ++ [7]%N) = Ok (Some [97; 98]%N).
Proof.
  intros cfg es es'. split; [destruct cfg as [[] [] []]; vm_compute; reflexivity|]. split; [destruct cfg as [[] [] []]; vm_compute; reflexivity|].
  split; [|split].
  - apply own_same; [now exists [97; 98]%N|]. repeat (apply own_other; [intros [b B]; discriminate B|]). apply own_nil.
  - do 2 (apply own_other; [intros [b B]; discriminate B|]). apply own_same; [now exists [97; 98]%N|].
    apply own_other; [intros [b B]; discriminate B|]. apply own_nil.
  - split; destruct cfg as [[] [] []]; vm_compute; reflexivity.
Qed.
Example C70_inserted_ex : forall (cfg : Cfg), let es1 := [mkRaw 0 [97; 98]%N] in let extra := [mkRaw 200 [1; 2; 3]; mkRaw 221 [0]]%N in let es2 := [mkRaw 3 [6]%N] in
  Forall fits es1 /\ Forall fits extra /\ Forall fits es2 /\ iteration_end [5]%N /\ end_visible (es1 ++ es2) [5]%N /\
  Forall (fun raw => ~ is_element (et_id DSSSParameterSetElement) raw) extra /\
  get_first_element DSSSParameterSetElement (enc_elements (es1 ++ extra ++ es2) ++ [5]%N) = Ok (Some 6%N).
Proof.
  intros cfg es1 extra es2. do 3 (split; [repeat constructor; vm_compute; repeat constructor|]). split; [now left|]. split; [right; left; discriminate|].
  split; [repeat constructor; intros [b B]; discriminate B|]. destruct cfg as [[] [] []]; vm_compute; reflexivity.
Qed.
(** the beacon of C69 with the channel in place of its elements *)
Example C70_frames_ex : forall (cfg : Cfg), exists h b n, rd_mgmt Beacon false (crash_beacon 5) = Ok ((h, b), n) /\
  bb_elements b = ([0; 1; 97; 117; 5] ++ repeat 0 5)%N /\
  rd_mgmt Beacon false (firstn 36 (crash_beacon 5) ++ [3; 1; 6]%N) = Ok ((h, with_beacon b [3; 1; 6]%N), 39).
Proof. intros cfg. do 3 eexists. split; [|split]; destruct cfg as [[] [] []]; vm_compute; reflexivity. Qed.
