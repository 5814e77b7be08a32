(** Proofs about the ways to get an association ID. *)
From Verif Require Import Base SpecBase BaseFacts Enums Common CommonFacts Crc Elements ElementTypes Tim Mgmt SpecMgmt MgmtFacts MgmtFacts2 Accessors AccessorFacts.

Section Facts.
Context {cfg : Cfg}.
Lemma checked_valid n a : aid_new_checked n = Some a -> ok_aid a.
Proof.
  intros E. destruct (aid_checked_spec n) as [S R]. destruct (S a E) as (_ & I & _).
  assert (1 <= n mod 16384 <= 2007)%N by (apply R; eauto). unfold aid_into_bits in I. unfold ok_aid. lia.
Qed.
Lemma macro_valid n a : (n < 65536)%N -> aid_macro n = Ok a -> ok_aid a.
Proof.
  intros B E. destruct (aid_macro_spec n B) as [Y X]. destruct (N.leb_spec 1 n); destruct (N.leb_spec n 2007).
  1: { destruct Y as (b & E' & C); [lia|]. rewrite E in E'. injection E' as <-. exact (checked_valid n a C). }
  all: rewrite X in E by lia; discriminate.
Qed.
Lemma assoc_resp_valid bs r n a : rd_assoc_resp bs = Ok (r, n) -> ar_aid r = Some a -> ok_aid a.
Proof.
  unfold rd_assoc_resp. intros H A.
  destruct (gread (rd_le 2) bs 0) as [[cap o]| |]; [cbn [rbind] in H|discriminate|discriminate].
  destruct (gread (rd_le 2) bs o) as [[st o1]| |]; [cbn [rbind] in H|discriminate|discriminate].
  destruct (gread (rd_le 2) bs o1) as [[v o2]| |]; [cbn [rbind] in H|discriminate|discriminate].
  destruct (v =? 0)%N.
  - cbn [rbind] in H. destruct (gread rd_elements bs o2) as [[es o3]| |]; cbn [rbind] in H; [|discriminate|discriminate].
    injection H as <- <-. discriminate.
  - destruct (aid_new_checked v) as [b|] eqn:C; [|discriminate]. cbn [rbind] in H.
    destruct (gread rd_elements bs o2) as [[es o3]| |]; cbn [rbind] in H; [|discriminate|discriminate].
    injection H as <- <-. cbn [ar_aid] in A. injection A as <-. exact (checked_valid _ _ C).
Qed.
Lemma confirm_valid bs r n : rd_mesh_confirm bs = Ok (r, n) -> ok_aid (mc_aid r).
Proof.
  unfold rd_mesh_confirm. intros H.
  destruct (rd_self_protected_header Sp_MeshPeeringConfirm bs) as [o| |]; [cbn [rbind] in H|discriminate|discriminate].
  destruct (gread (rd_le 2) bs o) as [[st o1]| |]; [cbn [rbind] in H|discriminate|discriminate].
  destruct (gread (rd_le 2) bs o1) as [[v o2]| |]; [cbn [rbind] in H|discriminate|discriminate].
  destruct (aid_new_checked v) as [b|] eqn:C; [|discriminate].
  destruct (gread rd_elements bs o2) as [[es o3]| |]; cbn [rbind] in H; [|discriminate|discriminate].
  injection H as <- <-. exact (checked_valid _ _ C).
Qed.
Lemma filter_map_forall {A B} (f : A -> Res serr (option B)) (P : B -> Prop) l bs :
  (forall a b, f a = Ok (Some b) -> P b) -> filter_map_res f l = Ok bs -> Forall P bs.
Proof.
  intros F. revert bs. induction l as [|a l IH]; cbn [filter_map_res]; intros bs H; [injection H as <-; constructor|].
  destruct (f a) as [o| |] eqn:E; [cbn [rbind] in H|discriminate|discriminate].
  destruct (filter_map_res f l) as [bs'| |]; [cbn [rbind] in H|discriminate|discriminate].
  specialize (IH _ eq_refl). destruct o as [b|]; injection H as <-; [constructor; eauto|exact IH].
Qed.
Lemma iter_valid t l : tb_aid_iter t = Ok (Some l) -> Forall ok_aid l.
Proof.
  unfold tb_aid_iter. intros H. destruct (tb_bitmap t) as [b|]; [|discriminate].
  destruct (bm_bytes b) as [bs| |]; [cbn [rbind] in H|discriminate|discriminate].
  match type of H with (rbind ?m _ = _) => destruct m as [l'| |] eqn:E; [cbn [rbind] in H|discriminate|discriminate] end.
  injection H as <-. revert E. apply filter_map_forall. intros aid a.
  destruct (N.testbit _ _); [|discriminate]. cbv zeta. destruct (overflow_checks && _); [discriminate|].
  intros E. injection E as E. exact (checked_valid _ _ E).
Qed.
Lemma aids_valid :
  (forall n a, aid_new_checked n = Some a -> ok_aid a) /\
  (forall n a, (n < 65536)%N -> aid_macro n = Ok a -> ok_aid a) /\
  (forall bs r n a, rd_assoc_resp bs = Ok (r, n) -> ar_aid r = Some a -> ok_aid a) /\
  (forall bs r n, rd_mesh_confirm bs = Ok (r, n) -> ok_aid (mc_aid r)) /\
  (forall t l, tb_aid_iter t = Ok (Some l) -> Forall ok_aid l).
Proof.
  repeat split; intros.
  - eapply checked_valid; eassumption.
  - eapply checked_valid; eassumption.
  - eapply macro_valid; eassumption.
  - eapply macro_valid; eassumption.
  - eapply assoc_resp_valid; eassumption.
  - eapply assoc_resp_valid; eassumption.
  - eapply confirm_valid; eassumption.
  - eapply confirm_valid; eassumption.
  - eapply iter_valid; eassumption.
Qed.
End Facts.

Lemma default_aid (cfg : Cfg) : ~ ok_aid aid_default /\ aid_aid aid_default = 0%N /\
  let h := mkMH 0 0 (repeat 0%N 6) (repeat 0%N 6) (repeat 0%N 6) 0 None in
  exists buf n e, wr_mgmt MeshPeeringConfirm h (mkConfirm 0 aid_default (c_bytes [221; 0]%N)) false (repeat 0%N 64) = Ok (buf, n) /\
    pread (rd_mgmt MeshPeeringConfirm false) (firstn n buf) 0 = Err e.
Proof.
  split; [unfold ok_aid; vm_compute; intros [H _]; now apply H|]. split; [reflexivity|].
  destruct cfg as [[] [] []]; do 3 eexists; split; vm_compute; reflexivity.
Qed.
