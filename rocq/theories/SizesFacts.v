(** Sizes reported by readers. *)
From Verif Require Import Base SpecBase BaseFacts StepsFacts Bits Layouts Enums Common Crc CrcFacts Elements ElementsFacts Mgmt SpecMgmt MgmtFacts MgmtFacts2 MgmtFacts3
  ElementTypesFacts SpecElementTypes Control CryptoHeader Amsdu Data SpecData DataFacts DataFacts2 DataFacts3 DataFacts4 Rsn Eapol SpecEapol EapolFacts SpecSizes.

Section Facts.
Context {cfg : Cfg}.

Lemma end_bad_le off len : end_bad off len = false -> off <= len.
Proof. unfold end_bad. destruct strict_end; [intros H%Nat.leb_gt|intros H%Nat.ltb_ge]; lia. Qed.
Lemma gread_elements_size from off x o : gread rd_elements from off = Ok (x, o) -> o = length from.
Proof.
  intros E. apply gread_inv in E as (B & n & E & ->). apply end_bad_le in B. unfold rd_elements in E.
  injection E as _ <-. rewrite skipn_length. lia.
Qed.
Definition ReadsToEnd {A} (r : reader A) : Prop := forall bs x n, wf_bytes bs -> r bs = Ok (x, n) -> n = length bs.
Ltac to_end E := 
  repeat match type of E with
  | context [gread rd_elements ?from ?off] =>
      let H := fresh "G" in destruct (gread rd_elements from off) as [[? ?]| |] eqn:H; cbn [rbind] in E; try discriminate E;
      apply gread_elements_size in H
  | context [gread ?r ?from ?off] => destruct (gread r from off) as [[? ?]| |]; cbn [rbind] in E; try discriminate E
  | context [if ?c then _ else _] => destruct c; cbn [rbind] in E; try discriminate E
  | context [match aid_new_checked ?c with _ => _ end] => destruct (aid_new_checked c); cbn [rbind] in E; try discriminate E
  end; injection E as _ <-; assumption.
Lemma rd_beacon_end : ReadsToEnd rd_beacon.
Proof. intros bs x n _ E. unfold rd_beacon in E. to_end E. Qed.
Lemma rd_auth_end : ReadsToEnd rd_auth.
Proof. intros bs x n _ E. unfold rd_auth in E. to_end E. Qed.
Lemma rd_assoc_req_end : ReadsToEnd rd_assoc_req.
Proof. intros bs x n _ E. unfold rd_assoc_req in E. to_end E. Qed.
Lemma rd_assoc_resp_end : ReadsToEnd rd_assoc_resp.
Proof.
  intros bs x n _ E. unfold rd_assoc_resp in E.
  do 3 (match type of E with context [gread (rd_le 2) ?from ?off] => destruct (gread (rd_le 2) from off) as [[? ?]| |]; cbn [rbind] in E; try discriminate E end).
  match type of E with context [rbind (if ?c then _ else match ?d with _ => _ end)] => destruct c; [|destruct d]; cbn [rbind] in E; try discriminate E end;
  to_end E.
Qed.
Lemma rd_reason_end : ReadsToEnd rd_reason.
Proof. intros bs x n _ E. unfold rd_reason in E. to_end E. Qed.
Lemma rd_probe_end : ReadsToEnd rd_probe_req.
Proof. intros bs x n _ E. unfold rd_probe_req in E. to_end E. Qed.
Lemma rd_open_end : ReadsToEnd rd_mesh_open.
Proof. intros bs x n _ E. unfold rd_mesh_open in E. destruct (rd_self_protected_header _ _); try discriminate E. cbn [rbind] in E. to_end E. Qed.
Lemma rd_confirm_end : ReadsToEnd rd_mesh_confirm.
Proof. intros bs x n _ E. unfold rd_mesh_confirm in E. destruct (rd_self_protected_header _ _); try discriminate E. cbn [rbind] in E.
  do 2 (match type of E with context [gread (rd_le 2) ?from ?off] => destruct (gread (rd_le 2) from off) as [[? ?]| |]; cbn [rbind] in E; try discriminate E end).
  destruct (aid_new_checked _); [|discriminate E]. to_end E. Qed.
Lemma rd_close_end : ReadsToEnd rd_mesh_close.
Proof. intros bs x n _ E. unfold rd_mesh_close in E. destruct (rd_self_protected_header _ _); try discriminate E. cbn [rbind] in E. to_end E. Qed.

Lemma enc_mgmt_header_size h : ok_mgmt_header h -> 2 + length (enc_mgmt_header h) = mgmt_header_size h.
Proof.
  intros (_ & _ & [A _] & [B _] & [C _] & _ & T). unfold enc_mgmt_header, mgmt_header_size.
  rewrite !app_length, !le_bytes_length, A, B, C. destruct (mh_ht h); [destruct T as (_ & -> & _)|]; cbn; lia.
Qed.
Lemma enc_frame_size fcs m : length (enc_frame fcs m) = length m + fcs_size fcs.
Proof. destruct fcs; cbn [enc_frame fcs_size]; [rewrite app_length, le_bytes_length|]; lia. Qed.
Lemma counts_all {W R} (t : BodyType W R) : ReadsToEnd (bt_read t) -> CountsAll t.
Proof.
  intros T fcs bs h r n Wb E. destruct (rd_mgmt_inv t fcs bs h r n Wb E) as (b0 & body & m & _ & _ & Wy & _ & -> & RD & ->).
  apply T in RD as ->; [|exact Wy]. rewrite enc_frame_size, !app_length. cbn [length]. lia.
Qed.
Lemma all_counted : CountsAll Beacon /\ CountsAll ProbeResponse /\ CountsAll Authentication /\ CountsAll AssociationRequest /\
  CountsAll AssociationResponse /\ CountsAll Deauthentication /\ CountsAll Disassociation /\ CountsAll ProbeRequest /\
  CountsAll MeshPeeringOpen /\ CountsAll MeshPeeringConfirm /\ CountsAll MeshPeeringClose.
Proof.
  repeat apply conj; apply counts_all;
  [exact rd_beacon_end|exact rd_beacon_end|exact rd_auth_end|exact rd_assoc_req_end|exact rd_assoc_resp_end|exact rd_reason_end|
   exact rd_reason_end|exact rd_probe_end|exact rd_open_end|exact rd_confirm_end|exact rd_close_end].
Qed.

Lemma counts_fixed {W R} (t : BodyType W R) k payload :
  (forall body r m, wf_bytes body -> bt_read t body = Ok (r, m) -> m = k /\ m + length (payload r) = length body) ->
  CountsFixed t k payload.
Proof.
  intros T fcs bs h r n Wb E. destruct (rd_mgmt_inv t fcs bs h r n Wb E) as (b0 & body & m & _ & _ & Wy & H & -> & RD & ->).
  apply T in RD as [-> L]; [|exact Wy]. rewrite enc_frame_size, !app_length. cbn [length].
  pose proof (enc_mgmt_header_size h H). lia.
Qed.
Lemma action_sizes : CountsFixed RawAction 1 ra_payload /\ CountsFixed RawVendorSpecificAction 4 va_payload.
Proof.
  split; apply counts_fixed; cbn [bt_read RawAction RawVendorSpecificAction].
  - intros body r m W E. destruct (rd_raw_action_inv body r m W E I) as [_ ->].
    unfold fixed_raw_action in *. cbn [app] in E |- *. rewrite rd_raw_action_cons in E. injection E as _ <-. cbn [length]. lia.
  - intros body r m W E. pose proof (rd_vendor_action_inv body r m W E I) as [[L _] B].
    assert (m = 4) as ->.
    { unfold rd_vendor_action, slice_from in E. destruct (gread rd_u8 body 0) as [[c o]| |] eqn:G; try discriminate. cbn [rbind] in E.
      apply (gread_size _ 1) in G; [|apply rd_u8_size]. destruct (negb _); [discriminate|].
      destruct (gread (rd_bytes 3) body o) as [[c' o']| |] eqn:G'; try discriminate. cbn [rbind] in E.
      apply (gread_size _ 3) in G'; [|apply rd_bytes_size]. destruct (_ <=? _); [|discriminate]. cbn [rbind] in E.
      injection E as _ <-. lia. }
    split; [reflexivity|]. rewrite B. unfold fixed_vendor. cbn [app length]. rewrite !app_length, L. lia.
Qed.

(** ** Data frames *)
Lemma rd_data_header_size from h n : rd_data_header from = Ok (h, n) -> n = dh_length h.
Proof.
  intros E. unfold rd_data_header, rd_opt in E.
  destruct (gread (rd_le 2) from 0) as [[f o]| |] eqn:G; try discriminate. cbn [rbind] in E.
  apply (gread_size _ 2) in G; [|apply rd_le_size].
  destruct (fcf_frame_type f); try discriminate.
  destruct (to_ds _ && from_ds _), (data_is_qos _), (order _); repeat (rinv E; cbn [rbind] in E); injection E as <- <-; cbn; lia.
Qed.
Lemma rd_data_size fcs bs h p n : rd_data fcs bs = Ok ((h, p), n) ->
  n = dh_length h /\ (forall b, p = Some b -> n + length b + fcs_size fcs = length bs).
Proof.
  intros E. unfold rd_data in E.
  destruct (if fcs then strip_and_validate_fcs bs else Ok bs) as [f| |] eqn:S; try discriminate. cbn [rbind] in E.
  assert (L : length f + fcs_size fcs = length bs).
  { destruct fcs; [|injection S as <-; cbn; lia]. unfold strip_and_validate_fcs, usub in S.
    destruct (Nat.leb_spec 4 (length bs)) as [B|B]; cbn [rbind] in S; [|discriminate].
    destruct (pread _ _ _); cbn [rbind] in S; try discriminate. destruct (N.eqb _ _); [|discriminate].
    injection S as <-. rewrite firstn_length. cbn. lia. }
  destruct (gread rd_data_header f 0) as [[h' o]| |] eqn:G; try discriminate. cbn [rbind] in E.
  pose proof G as B. apply gread_bounds in B; [|apply rd_data_header_IB].
  apply gread_inv in G as (_ & k & G & ->). cbn [skipn Nat.add] in *. apply rd_data_header_size in G as ->.
  destruct (data_has_payload _).
  - rewrite slice_from_ok in E by lia. cbn [rbind] in E. pose proof (skipn_length (dh_length h') f) as SK. set (sk := skipn _ f) in *. clearbody sk. injection E as <- <- <-. split; [reflexivity|].
    intros b [= <-]. lia.
  - injection E as <- <- <-. split; [reflexivity|discriminate].
Qed.
Lemma rd_subframe_size bs s n : rd_subframe bs = Ok (s, n) ->
  n = round4 (14 + length (sf_payload s)) /\ 14 + length (sf_payload s) <= length bs.
Proof.
  intros E. unfold rd_subframe in E. 
  destruct (gread (rd_bytes 6) bs 0) as [[a o1]| |] eqn:G1; try discriminate. cbn [rbind] in E.
  destruct (gread (rd_bytes 6) bs o1) as [[b o2]| |] eqn:G2; try discriminate. cbn [rbind] in E.
  destruct (gread (rd_le 2) bs o2) as [[c o3]| |] eqn:G3; try discriminate. cbn [rbind] in E.
  destruct (gread (rd_bytes (N.to_nat c)) bs o3) as [[d o4]| |] eqn:G4; try discriminate. cbn [rbind] in E.
  injection E as <- <-. pose proof G4 as B. apply gread_bounds in B; [|apply rd_bytes_IB].
  apply (gread_size _ 6) in G1; [|apply rd_bytes_size]. apply (gread_size _ 6) in G2; [|apply rd_bytes_size].
  apply (gread_size _ 2) in G3; [|apply rd_le_size].
  apply gread_inv in G4 as (_ & k & G4 & ->). apply rd_bytes_inv in G4 as (-> & q & _ & L). cbn [sf_payload].
  subst. rewrite L. split; [f_equal; lia|lia].
Qed.

(** ** Other readers *)
Lemma rd_ctrl_size s flags bs c n : rd_ctrl s flags bs = Ok (c, n) ->
  n = match c with C_RTS _ _ _ _ => 14 | C_CTS _ _ _ | C_Ack _ _ _ => 8 | C_Unknown _ _ body => length body end /\
  (forall t f body, c = C_Unknown t f body -> body = bs) /\ n <= length bs.
Proof.
  intros E. destruct s; cbn [rd_ctrl] in E; try (injection E as <- <-; split; [reflexivity|]; split; [intros ? ? ? [= _ _ <-]; reflexivity|lia]);
  rinv E; injection E as <- <-; (split; [lia|]); (split; [discriminate|lia]).
Qed.
Lemma rd_crypto_header_size bs h n : rd_crypto_header bs = Ok (h, n) -> n = 8 /\ 8 <= length bs.
Proof.
  intros E. unfold rd_crypto_header in E. destruct (gread (rd_bytes 8) bs 0) as [[x o]| |] eqn:G; try discriminate. cbn [rbind] in E.
  pose proof G as B. apply gread_bounds in B; [|apply rd_bytes_IB]. apply (gread_size _ 8) in G; [|apply rd_bytes_size].
  destruct (negb _); [discriminate|]. injection E as _ <-. lia.
Qed.
Lemma rd_wrapped_size {A} mic (r : reader A) bs w n : rd_wrapped mic r bs = Ok (w, n) -> n = length bs.
Proof.
  intros E. unfold rd_wrapped in E.
  repeat match type of E with
  | (match ?x with _ => _ end) = _ => destruct x as [?| |]; cbn [rbind] in E; try discriminate E
  | rbind ?x _ = _ => destruct x as [?| |]; cbn [rbind] in E; try discriminate E
  | (let '(_, _) := ?p in _) = _ => destruct p
  end. now injection E as _ <-.
Qed.
Lemma rd_key_frame_size akm bs (k : KeyFrame bytes) n : wf_bytes bs -> rd_key_frame akm bs = Ok (k, n) ->
  n = 81 + length (key_mic k) + 2 + length (key_data k) /\ n <= length bs.
Proof.
  intros W E. destruct (rd_key_frame_inv akm bs k n W E) as (v & len & res & tail & -> & Lr & _ & N & B & K & _).
  destruct K as (_ & _ & _ & Ln & _). split; [|lia]. rewrite N. unfold enc_received.
  rewrite !app_length, !be_bytes_length, Lr, Ln. cbn [length]. lia.
Qed.
End Facts.

(** ** Witnesses *)
Definition hdr24 (b0 : N) : bytes := [b0; 0]%N ++ repeat 0%N 22.
Lemma data_not_counted {cfg : Cfg} : exists bs x n, wf_bytes bs /\ rd_data false bs = Ok (x, n) /\ n < length bs.
Proof.
  exists (hdr24 8 ++ [1; 2; 3]%N). do 2 eexists.
  split; [repeat constructor|]. split; [destruct cfg as [[] [] []]; vm_compute; reflexivity|]. vm_compute. repeat constructor.
Qed.
Lemma action_not_counted {cfg : Cfg} : exists bs x n, wf_bytes bs /\ rd_mgmt RawAction false bs = Ok (x, n) /\ n < length bs.
Proof.
  exists (hdr24 208 ++ [4; 2; 3]%N). do 2 eexists.
  split; [repeat constructor|]. split; [destruct cfg as [[] [] []]; vm_compute; reflexivity|]. vm_compute. repeat constructor.
Qed.
Lemma fcs_not_counted {cfg : Cfg} : exists bs x n, wf_bytes bs /\ rd_mgmt Beacon true bs = Ok (x, n) /\ n < length bs.
Proof.
  exists (enc_frame true (hdr24 128 ++ repeat 0%N 12 ++ [0; 1; 65]%N)). do 2 eexists.
  split; [apply Forall_forall; vm_compute; intuition (subst; reflexivity)|].
  split; [destruct cfg as [[] [] []]; vm_compute; reflexivity|]. vm_compute. repeat constructor.
Qed.
Lemma subframe_beyond {cfg : Cfg} : exists bs s n, wf_bytes bs /\ rd_subframe bs = Ok (s, n) /\ length bs < n.
Proof.
  exists (repeat 0%N 12 ++ [1; 0; 7]%N). do 2 eexists.
  split; [repeat constructor|]. split; [destruct cfg as [[] [] []]; vm_compute; reflexivity|]. vm_compute. repeat constructor.
Qed.
