(** Proofs for C70: frames. *)
From Verif Require Import Base SpecBase BaseFacts Enums Common Crc Elements SpecElements ElementsFacts AcceptFacts SizesFacts Mgmt SpecMgmt SpecNeighbours.

Section Facts.
Context {cfg : Cfg}.
(** reads the first bytes, at least one, and nothing else *)
Definition Front {A} (r : reader A) : Prop := forall a x n, r a = Ok (x, n) -> 0 < n <= length a /\ r (firstn n a) = Ok (x, n).
Lemma rd_bytes_front k : 0 < k -> Front (rd_bytes k).
Proof.
  intros K a x n E. unfold rd_bytes in *. destruct (Nat.ltb_spec (length a) k) as [|L]; [discriminate|]. injection E as <- <-.
  split; [lia|]. rewrite firstn_length_le, Nat.ltb_irrefl by exact L. now rewrite firstn_firstn, Nat.min_id.
Qed.
Lemma rd_le_front k : 0 < k -> Front (rd_le k).
Proof.
  intros K a x n E. unfold rd_le in *. destruct (Nat.ltb_spec (length a) k) as [|L]; [discriminate|].
  assert (le_val (firstn k a) = x /\ k = n) as [<- <-] by (split; congruence).
  split; [lia|]. rewrite firstn_length_le, Nat.ltb_irrefl by exact L. now rewrite firstn_firstn, Nat.min_id.
Qed.
Lemma rd_u8_front : Front rd_u8.
Proof. intros [|c a] x n E; [discriminate|]. unfold rd_u8 in *. injection E as <- <-. cbn. split; [lia|reflexivity]. Qed.
Lemma gread_front {A} (r : reader A) from off x o : Ext r -> Front r -> gread r from off = Ok (x, o) ->
  off < o <= length from /\ forall z, o <= z -> gread r (firstn z from) off = Ok (x, o).
Proof.
  intros X F G. destruct (gread_inv r from off x o G) as (L & k & R & ->). apply end_bad_le in L. destruct (F _ _ _ R) as [K R'].
  rewrite skipn_length in K. split; [lia|]. intros z Z. unfold gread.
  rewrite end_bad_lt by (rewrite firstn_length; lia). rewrite skipn_firstn_comm.
  assert (E : r (firstn (z - off) (skipn off from)) = Ok (x, k)).
  { rewrite <- (firstn_skipn k (firstn (z - off) (skipn off from))), firstn_firstn, Nat.min_l by lia. now apply X. }
  now rewrite E.
Qed.
Lemma elements_got from z e o : gread rd_elements from z = Ok (e, o) -> z <= length from /\ e = skipn z from.
Proof. intros G. apply gread_inv in G as (L & k & R & _). unfold rd_elements in R. split; [now apply end_bad_le in L|congruence]. Qed.
Lemma elements_put (from more : bytes) z : z <= length from -> end_ok more ->
  gread rd_elements (firstn z from ++ more) z = Ok (more, length (firstn z from ++ more)).
Proof.
  intros L E. assert (length (firstn z from) = z) as F by (apply firstn_length_le; exact L).
  unfold gread. rewrite BaseFacts.end_bad_false.
  - rewrite (skipn_app_exact (firstn z from) more z) by (symmetry; exact F). unfold rd_elements. rewrite app_length, F. reflexivity.
  - rewrite app_length, F. unfold slack. destruct E as [E|E]; [rewrite E; lia|]. destruct more; [contradiction|]. cbn [length]. destruct strict_end; lia.
Qed.
Definition Swap {A} (r : reader A) (elements : A -> bytes) (w : A -> bytes -> A) : Prop :=
  forall from x n, r from = Ok (x, n) -> exists z, z <= length from /\ elements x = skipn z from /\
    forall more : bytes, end_ok more -> r (firstn z from ++ more) = Ok (w x more, length (firstn z from ++ more)).
Ltac get G := apply gread_front in G as [? ?];
  [|auto using rd_le_ext, rd_bytes_ext, rd_u8_ext|solve [apply rd_le_front; lia|apply rd_bytes_front; lia|apply rd_u8_front|assumption]].
Ltac reads E := repeat match type of E with
  | rbind (gread rd_elements ?a ?b) _ = _ => fail 1
  | rbind (gread ?r ?a ?b) _ = _ => let G := fresh "G" in destruct (gread r a b) as [[? ?]| |] eqn:G; try discriminate E; cbn [rbind] in E; get G
  | rbind (if ?c then _ else _) _ = _ => let C := fresh "C" in destruct c eqn:C; try discriminate E; cbn [rbind] in E
  | rbind (match ?c with _ => _ end) _ = _ => let C := fresh "C" in destruct c eqn:C; try discriminate E; cbn [rbind] in E
  | (if ?c then _ else _) = _ => let C := fresh "C" in destruct c eqn:C; try discriminate E
  | (match ?c with Some _ => _ | None => _ end) = _ => let C := fresh "C" in destruct c eqn:C; try discriminate E
  end.
Ltac rereads more := repeat match goal with
  | H : forall z, ?o <= z -> gread ?r (firstn z ?f) ?p = Ok ?v |- context [gread ?r (firstn ?z ?f ++ more) ?p] =>
    rewrite (gread_ext r p (firstn z f) more _ _ ltac:(auto using rd_le_ext, rd_bytes_ext, rd_u8_ext) (H z ltac:(lia))); cbn [rbind]
  | S : forall z m, ?o <= z -> rd_self_protected_header ?c (firstn z ?f ++ m) = Ok ?o |- context [rd_self_protected_header ?c (firstn ?z ?f ++ more)] =>
    rewrite (S z more ltac:(lia)); cbn [rbind]
  | C : ?c = ?b |- context [if ?c then _ else _] => rewrite C; cbn [rbind]
  | C : ?c = ?b |- context [match ?c with Some _ => _ | None => _ end] => rewrite C; cbn [rbind]
  end.
Ltac exchange E := reads E;
  match type of E with rbind (gread rd_elements ?f ?z) _ = _ =>
    let G := fresh "G" in destruct (gread rd_elements f z) as [[? ?]| |] eqn:G; try discriminate E; cbn [rbind] in E; injection E as <- _;
    destruct (elements_got _ _ _ _ G) as [? ->]; clear G; exists z; split; [assumption|]; split; [reflexivity|];
    let more := fresh "more" in let EO := fresh "EO" in intros more EO; rereads more; rewrite (elements_put f more z) by assumption; reflexivity
  end.
Lemma beacon_swap : Swap rd_beacon bb_elements with_beacon.
Proof. intros from x n E. unfold rd_beacon in *. exchange E. Qed.
Lemma auth_swap : Swap rd_auth au_elements with_auth.
Proof. intros from x n E. unfold rd_auth in *. exchange E. Qed.
Lemma assoc_req_swap : Swap rd_assoc_req aq_elements with_assoc_req.
Proof. intros from x n E. unfold rd_assoc_req in *. exchange E. Qed.
Lemma assoc_resp_swap : Swap rd_assoc_resp ar_elements with_assoc_resp.
Proof. intros from x n E. unfold rd_assoc_resp in *. exchange E. Qed.
Lemma reason_swap : Swap rd_reason rb_elements with_reason.
Proof. intros from x n E. unfold rd_reason in *. exchange E. Qed.
Lemma probe_swap : Swap rd_probe_req pq_elements with_probe.
Proof. intros from x n E. unfold rd_probe_req in *. exchange E. Qed.
Lemma self_protected_front code from o : rd_self_protected_header code from = Ok o -> o <= length from /\
  forall z (more : bytes), o <= z -> rd_self_protected_header code (firstn z from ++ more) = Ok o.
Proof.
  intros E. unfold rd_self_protected_header in *. reads E. injection E as <-. split; [lia|]. intros z more Z. rereads more. reflexivity.
Qed.
Lemma open_swap : Swap rd_mesh_open mo_elements with_open.
Proof.
  intros from x n E. unfold rd_mesh_open in *. destruct (rd_self_protected_header _ from) as [o| |] eqn:S; try discriminate E. cbn [rbind] in E.
  apply self_protected_front in S as [L S]. exchange E.
Qed.
Lemma confirm_swap : Swap rd_mesh_confirm mc_elements with_confirm.
Proof.
  intros from x n E. unfold rd_mesh_confirm in *. destruct (rd_self_protected_header _ from) as [o| |] eqn:S; try discriminate E. cbn [rbind] in E.
  apply self_protected_front in S as [L S]. exchange E.
Qed.
Lemma close_swap : Swap rd_mesh_close ml_elements with_close.
Proof.
  intros from x n E. unfold rd_mesh_close in *. destruct (rd_self_protected_header _ from) as [o| |] eqn:S; try discriminate E. cbn [rbind] in E.
  apply self_protected_front in S as [L S]. exchange E.
Qed.

Lemma rd_mgmt_header_front f : Front (rd_mgmt_header f).
Proof.
  intros a x n E. unfold rd_mgmt_header in *. reads E; (assert (x = x) by reflexivity); injection E as <- <-; (split; [lia|]);
    rewrite <- (app_nil_r (firstn _ a)); set (more := @nil N); rereads more; reflexivity.
Qed.
Lemma swap_replaceable {W R} (t : BodyType W R) f w : Swap (bt_read t) f w -> Replaceable t f w.
Proof.
  intros S bs h x n E. unfold rd_mgmt in E. cbn [rbind] in E.
  destruct (gread (rd_le 2) bs 0) as [[fcf o]| |] eqn:G; try discriminate E. cbn [rbind] in E.
  destruct (fcf_frame_type fcf) eqn:T; try discriminate E.
  destruct (gread (rd_mgmt_header (fcf_flags fcf)) bs o) as [[h' o2]| |] eqn:G2; try discriminate E. cbn [rbind] in E.
  destruct (gread (bt_read t) bs o2) as [[x' o3]| |] eqn:G3; try discriminate E. cbn [rbind] in E.
  assert (h' = h /\ x' = x) as [-> ->] by (split; congruence). clear E.
  apply gread_front in G as [B1 G]; [|apply rd_le_ext|apply rd_le_front; lia].
  apply gread_front in G2 as [B2 G2]; [|apply rd_mgmt_header_ext|apply rd_mgmt_header_front].
  apply gread_inv in G3 as (_ & k & G3 & _). destruct (S _ _ _ G3) as (z & L & -> & P). rewrite skipn_length in L.
  exists (firstn (o2 + z) bs). split; [rewrite skipn_skipn_add; symmetry; apply firstn_skipn|].
  intros more EO. unfold rd_mgmt. cbn [rbind].
  rewrite (gread_ext _ _ _ more _ _ (rd_le_ext 2) (G (o2 + z) ltac:(lia))). cbn [rbind]. rewrite T.
  rewrite (gread_ext _ _ _ more _ _ (rd_mgmt_header_ext _) (G2 (o2 + z) ltac:(lia))). cbn [rbind].
  assert (K : skipn o2 (firstn (o2 + z) bs ++ more) = firstn z (skipn o2 bs) ++ more).
  { rewrite skipn_app, firstn_length_le by lia. replace (o2 - (o2 + z)) with 0 by lia. cbn [skipn]. rewrite skipn_firstn_comm.
    now replace (o2 + z - o2) with z by lia. }
  unfold gread at 1. rewrite BaseFacts.end_bad_false.
  - rewrite K, (P more EO). cbn [rbind]. rewrite !app_length, !firstn_length_le by (rewrite ?skipn_length; lia).
    now rewrite Nat.add_assoc.
  - rewrite app_length, firstn_length_le by lia. unfold slack. destruct EO as [EO|EO]; [rewrite EO; lia|]. destruct more; [contradiction|]. cbn [length]. destruct strict_end; lia.
Qed.
Lemma replaceable_bodies :
  Replaceable Beacon bb_elements with_beacon /\ Replaceable ProbeResponse bb_elements with_beacon /\
  Replaceable ProbeRequest pq_elements with_probe /\ Replaceable Authentication au_elements with_auth /\
  Replaceable AssociationRequest aq_elements with_assoc_req /\ Replaceable AssociationResponse ar_elements with_assoc_resp /\
  Replaceable Deauthentication rb_elements with_reason /\ Replaceable Disassociation rb_elements with_reason /\
  Replaceable MeshPeeringOpen mo_elements with_open /\ Replaceable MeshPeeringConfirm mc_elements with_confirm /\
  Replaceable MeshPeeringClose ml_elements with_close.
Proof.
  repeat split; apply swap_replaceable; cbn [bt_read Beacon ProbeResponse beacon_like ProbeRequest Authentication AssociationRequest AssociationResponse
    Deauthentication Disassociation reason_body MeshPeeringOpen MeshPeeringConfirm MeshPeeringClose];
  auto using beacon_swap, probe_swap, auth_swap, assoc_req_swap, assoc_resp_swap, reason_swap, open_swap, confirm_swap, close_swap.
Qed.
End Facts.
