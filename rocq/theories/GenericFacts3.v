(** Witnesses about frames of unknown type. *)
From Verif Require Import Base BaseFacts Enums Common SpecBase SpecCommon Crc CrcFacts SpecElementTypes Mgmt SpecMgmt MgmtFacts2 MgmtFacts5
  Data SpecData Control Generic SpecGeneric GenericFacts GenericFacts2.
Section Facts.
Context {cfg : Cfg}.
(** request to send *)
Definition rts : bytes := [0xb4; 0; 1; 0; 1; 2; 3; 4; 5; 6; 11; 12; 13; 14; 15; 16]%N.
Lemma rts_second_address : exists g, wf_bytes g /\ 10 <= length g /\ has_second_address g = true /\
  field_at 6 10 g <> None /\ gf_address_2 g = Ok None.
Proof.
  exists rts. split; [now apply wf_bytesb_spec|]. split; [cbn; lia|]. split; [reflexivity|]. split; [discriminate|].
  destruct cfg as [[] [] []]; reflexivity.
Qed.
Definition beacon_like : bytes := ([0x80; 0; 1; 0] ++ repeat 7 18 ++ [0x10; 0x20])%N.
Lemma sequence_big_endian : native_le = false -> exists g o, wf_bytes g /\ 10 <= length g /\ mgmt_or_data g = true /\
  gf_sequence_control g = Ok o /\ o <> option_map le_val (field_at 2 22 g).
Proof.
  intros NL. exists beacon_like. eexists. split; [now apply wf_bytesb_spec|]. split; [cbn; lia|]. split; [reflexivity|].
  destruct cfg as [[] [] []]; try discriminate NL; (split; [reflexivity|discriminate]).
Qed.
Lemma new_panics : exists bs, wf_bytes bs /\ gf_new bs true = Panic.
Proof. exists [1; 2; 3]%N. split; [now apply wf_bytesb_spec|reflexivity]. Qed.
Lemma with_fcs_ignored {A} bs b (arms : list (Arm A)) : match_frames bs (Some b) arms = match_frames bs (Some true) arms.
Proof. reflexivity. Qed.
End Facts.
(** a disassociation frame without frame check sequence *)
Definition disassoc : bytes := ([0xa0; 0; 0; 0] ++ repeat 7 18 ++ [0; 0; 8; 0; 0; 1; 65])%N.
Definition disassoc_arm {cfg : Cfg} : Arm IEEE80211Reason :=
  mkArm _ _ (mgmt_kind Disassociation) (fun f => rd_mgmt Disassociation f) (fun x => rb_reason (snd x)).
Lemma with_fcs_false {cfg : Cfg} : exists r e, match_frames disassoc None [disassoc_arm] = Ok r /\ match_frames disassoc (Some false) [disassoc_arm] = Err e.
Proof. destruct cfg as [[] [] []]; eexists; eexists; (split; [reflexivity|vm_compute; reflexivity]). Qed.
(** EAPOL-Start is not a key frame *)
Definition eapol_start : bytes := ([0x08; 0; 0; 0] ++ repeat 7 18 ++ [0; 0] ++ [0xaa; 0xaa; 3; 0; 0; 0; 0x88; 0x8e] ++ [1; 1; 0; 0])%N.
Lemma eapol_start_taken {cfg : Cfg} : gf_is_eapol_key_frame eapol_start = Ok true /\ nth 33 eapol_start 0%N = 1%N.
Proof. split; [destruct cfg as [[] [] []]; reflexivity|reflexivity]. Qed.

Lemma ack_length : exists c, ok_ctrl c /\ ctrl_length c <> length (enc_ctrl c).
Proof.
  exists (C_Ack 0 0 (repeat 1 6))%N. split; [|discriminate].
  split; [reflexivity|]. split; [reflexivity|]. split; [reflexivity|now apply wf_bytesb_spec].
Qed.
