(** Reservations of the medium: an exchange of RTS and CTS that a third station overhears. *)
From Verif Require Import Base SpecBase BaseFacts Crc CrcFacts SpecFcs CrcPolyFacts Enums Common Elements SpecElements Mgmt SpecMgmt Data SpecData Control Generic SpecGeneric SpecDelivery DeliveryFacts
  SpecNoise NoiseFacts FcsFacts ScanFacts2 SpecReserve ReserveFacts.

Definition st_a : bytes := repeat 2%N 6.
Definition st_b : bytes := repeat 4%N 6.
Definition st_c : bytes := repeat 6%N 6.
Definition rts : ControlFrame := C_RTS 0 300 st_b st_a.
Definition cts : ControlFrame := C_CTS 0 250 st_a.
Definition poll : ControlFrame := C_Unknown Ct_PSPoll 0 (le_bytes 2 0xc001 ++ st_b ++ st_a).
Definition plain (c : ControlFrame) : bytes := enc_fcf 1 (ctrl_subtype_into_bits (ctrl_subtype c)) (ctrl_flags c) ++ enc_ctrl c.
Definition rts_air : bytes := Eval vm_compute in enc_frame true (plain rts).
Definition cts_air : bytes := Eval vm_compute in enc_frame true (plain cts).
Definition poll_air : bytes := Eval vm_compute in enc_frame true (plain poll).
Definition bad_rts : bytes := Eval vm_compute in firstn 2 rts_air ++ [0xff]%N ++ skipn 3 rts_air.
Definition nav_beacon : bytes := Eval vm_compute in
  enc_frame true (enc_mgmt 8 (ex_header st_b) (le_bytes 8 1 ++ le_bytes 2 100 ++ le_bytes 2 17 ++ enc_elements [mkRaw 0 [72; 111]%N])).

Section F.
Context {cfg : Cfg}.
Lemma st_ok n : (n < 256)%N -> address (repeat n 6).
Proof. intros B. split; [reflexivity|]. cbn. repeat constructor; exact B. Qed.
Lemma ctrls_ok : ok_ctrl rts /\ ok_ctrl cts /\ ok_ctrl poll.
Proof.
  split; [split; [reflexivity|split; [reflexivity|split; now apply st_ok]]|]. split; [split; [reflexivity|split; [reflexivity|now apply st_ok]]|].
  split; [reflexivity|]. split; [split; reflexivity|]. repeat (split; [discriminate|]). apply wf_bytesb_spec. reflexivity.
Qed.
Lemma ctrl_wrote c ra d : ok_ctrl c -> ctrl_says c = Some (ra, d) -> wrote ra d (enc_frame true (plain c)).
Proof.
  intros H S. destruct (ctrl_written c H) as (x & E & L & W & Wg & _). rewrite L in W, Wg. fold (plain c) in W, Wg.
  assert (Ln : length (plain c) = 2 + length (enc_ctrl c)) by (unfold plain; rewrite app_length; reflexivity).
  destruct (written_at (wr_control c) (plain c) (repeat 0%N (2 + length (enc_ctrl c) + slack)) W) as (b & n & Wr & F); [rewrite repeat_length, Ln; constructor|].
  unfold enc_frame. rewrite <- F at 1. apply (wrote_ctrl c ra d (repeat 0%N (2 + length (enc_ctrl c) + slack)) b n _ H S).
  - rewrite repeat_length. constructor.
  - exact Wr.
  - rewrite F. now apply fcs_standard.
Qed.
Lemma beacon_wrote : wrote (mh_ra (ex_header st_b)) (mh_duration (ex_header st_b)) nav_beacon.
Proof.
  set (b := nav_beacon). change b with (firstn (length nav_beacon) (nav_beacon ++ repeat 0%N (120 - length nav_beacon))).
  refine (wrote_mgmt _ _ Beacon 0 8 ok_beacon fixed_beacon bb_elements with_beacon False (ex_header st_b) (mkBeacon 1 100 17 (c_bytes (enc_elements [mkRaw 0 [72; 111]%N])))
    (enc_elements [mkRaw 0 [72; 111]%N]) (repeat 0%N 120) _ _ beacon_type (header_ok _ (st_ok 4 eq_refl)) (conj eq_refl (conj eq_refl eq_refl)) _ _ _ _).
  - apply wf_bytesb_spec. reflexivity.
  - cbn [bb_elements c_write c_bytes]. apply wr_bytes_W.
  - rewrite repeat_length. unfold slack. destruct strict_end; vm_compute; lia.
  - destruct cfg as [[] [] []]; vm_compute; reflexivity.
Qed.
Lemma rts_damaged : damaged rts_air bad_rts.
Proof.
  split; [apply wf_bytesb_spec; vm_compute; reflexivity|]. split; [apply wf_bytesb_spec; vm_compute; reflexivity|]. split; [vm_compute; reflexivity|].
  split; [intros Z; apply (f_equal (fun x => nth 2 x 0%N)) in Z; vm_compute in Z; discriminate Z|]. left. exists 0.
  intros i Hi. refine (differsb_spec (seq 0 32) rts_air bad_rts _ _ i _); [vm_compute; reflexivity|vm_compute; reflexivity|]. rewrite in_seq. lia.
Qed.
Definition ex_events : list (N * bytes) := [(100, nav_beacon); (1000, bad_rts); (1050, cts_air); (1100, poll_air); (900, rts_air)]%N.
Lemma ex_arrives : arrives ex_events [(100, mh_ra (ex_header st_b), mh_duration (ex_header st_b)); (1050, st_a, 250); (1100, st_b, 0xc001); (900, st_b, 300)]%N.
Proof.
  destruct ctrls_ok as (O1 & O2 & O3). apply arrives_frame; [exact beacon_wrote|].
  apply (arrives_damaged _ st_b 300 rts_air); [exact (ctrl_wrote rts st_b 300 O1 eq_refl)|exact rts_damaged|].
  apply arrives_frame; [exact (ctrl_wrote cts st_a 250 O2 eq_refl)|]. apply arrives_frame; [exact (ctrl_wrote poll st_b 0xc001 O3 eq_refl)|].
  apply arrives_frame; [exact (ctrl_wrote rts st_b 300 O1 eq_refl)|]. constructor.
Qed.
End F.
Lemma ex_quiet {cfg : Cfg} : quiet_until st_c 0 ex_events = Ok 1300%N /\ quiet_until st_a 0 ex_events = Ok 1200%N /\ answers st_b 50 rts_air = Ok (Some cts).
Proof. destruct cfg as [[] [] []]; split; [|split| |split| |split| |split| |split| |split| |split| |split]; vm_compute; reflexivity. Qed.
Lemma ex_unanswered {cfg : Cfg} : (wrote st_b 300 rts_air /\ damaged rts_air bad_rts) /\ answers st_c 50 rts_air = Ok None /\ answers st_b 301 rts_air = Ok None.
Proof.
  split; [split; [exact (ctrl_wrote rts st_b 300 (proj1 ctrls_ok) eq_refl)|exact rts_damaged]|]. destruct cfg as [[] [] []]; split; vm_compute; reflexivity.
Qed.
