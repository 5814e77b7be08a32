(** Theorems about mesh links. *)
From Verif Require Import Base SpecBase Common Elements Mgmt SpecMgmt ElementTypes SpecElementTypes Generic SpecGeneric SpecNoise SpecPeering PeeringFacts PeeringFacts2.

(** ** C90: mesh stations agree about their links *)
(** Whoever asks whom how often, whatever is lost, damaged, delayed, repeated or sent by others in between, and however the stations choose their link IDs: if the
    link with [b] is established at [a], then the link ID that [a] has for [b] is the one that [b] uses, and [b] has received an open with the link ID that [a] uses. *)
Theorem C90_agree : forall (cfg : Cfg) l link es m a b x, peers l -> (forall a b, u16 (link a b)) -> mesh_runs l link no_links es m -> established m a b x ->
  x = link b a /\ In (b, a, link a b) (m_opened m).
Proof. exact @links_agree. Qed.
Print Assumptions C90_agree.
(** Nothing of that stops them with an error or a panic. What is missing: a stranger's frames of the two types, see below. *)
Theorem C90_goes_on_partial : forall (cfg : Cfg) l link es m e, peers l -> (forall a b, u16 (link a b)) -> mesh_runs l link no_links es m -> can_happen l m e ->
  exists m1, mesh_step l link m e = Ok m1.
Proof. exact @mesh_goes_on. Qed.
Print Assumptions C90_goes_on_partial.
(** Two stations that have asked each other have a link as soon as their frames and the answers get through, *)
Theorem C90_made : forall (cfg : Cfg) l link es m a b s t s2, peers l -> (forall a b, u16 (link a b)) -> mesh_runs l link no_links es m ->
  In (Opens a b s) es -> In (Opens b a t) es -> ok_chosen s2 ->
  exists f g f' g' m2, open_frame a b (link a b) s = Ok f /\ open_frame b a (link b a) t = Ok f' /\
    mesh_runs l link m [Hears b f s2; Hears a g s2; Hears a f' s2; Hears b g' s2] m2 /\ established m2 a b (link b a) /\ established m2 b a (link a b).
Proof. exact @links_made. Qed.
Print Assumptions C90_made.
(** and it lasts. *)
Theorem C90_lasts : forall (cfg : Cfg) l link m es m2 a b x, mesh_runs l link m es m2 -> established m a b x -> established m2 a b x.
Proof. exact @links_last. Qed.
Print Assumptions C90_lasts.
Example C90_ex : forall (cfg : Cfg), peers mesh_arms /\ (forall a b, u16 (mesh_link a b)) /\ exists m, mesh_runs mesh_arms mesh_link no_links mesh_history m /\
  m_opened m = [(repeat 1%N 6, repeat 2%N 6, 0x102%N); (repeat 2%N 6, repeat 1%N 6, 0x201%N); (repeat 2%N 6, repeat 1%N 6, 0x201%N)] /\
  m_confirmed m = [(repeat 2%N 6, repeat 1%N 6, 0x201%N); (repeat 1%N 6, repeat 2%N 6, 0x102%N)].
Proof. exact (fun cfg => conj mesh_peers (conj mesh_link_ok mesh_ex)). Qed.
(** A frame of a stranger with a peering element of 25 bytes stops everybody who receives it: looking up the element panics. *)
Theorem C90_stranger_refuted : forall (cfg : Cfg), exists buffer n,
  wr_mgmt MeshPeeringOpen (mkMH 0 300 (repeat 255%N 6) (repeat 9%N 6) (repeat 0%N 6) 0x120 None) (mkOpen 0x31 (c_bytes (117 :: 25 :: repeat 1 25)%N)) true (repeat 0%N 100) =
    Ok (buffer, n) /\
  forall link m a s, mesh_step mesh_arms link m (Hears a (firstn n buffer) s) = Panic.
Proof. exact @stranger_stops. Qed.
Print Assumptions C90_stranger_refuted.
