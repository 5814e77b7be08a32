(** Messages that are repeated until they are acknowledged: frames can always be sent; two messages in four attempts. *)
From Verif Require Import Base SpecBase BaseFacts Crc CrcFacts SpecFcs CrcPolyFacts FcsFacts Enums Common Elements SpecElements SpecElementTypes Mgmt SpecMgmt MgmtFacts2 Data SpecData DataFacts2 Control Generic SpecGeneric
  SpecPortable SpecDelivery DeliveryFacts SpecNoise NoiseFacts RatesFacts2 SpecRetry SpecReserve ReserveFacts ReserveFacts2 SpecAck AckFacts.

Definition ack_header (from to : bytes) (number : N) (again : bool) : DataHeader :=
  mkDH Dt_Data (if again then 8 else 0) 0 to from (repeat 8%N 6) (16 * (number mod 4096)) None None None.
Definition data_frame (from to : bytes) (number : N) (again : bool) (m : bytes) : bytes := enc_frame true (enc_data (ack_header from to number again) m).
Definition ack_frame (to : bytes) : bytes := enc_frame true (enc_fcf 1 13 0 ++ enc_ctrl (C_Ack 0 0 to)).

Section F.
Context {cfg : Cfg}.
Lemma can_transmit from to tx m rest : tx_todo tx = m :: rest -> address from -> address to -> wf_bytes m ->
  transmission from to tx (data_frame from to (tx_number tx) (tx_again tx) m).
Proof.
  intros E Af At Wm. set (h := ack_header from to (tx_number tx) (tx_again tx)).
  assert (Hh : ok_data_header h).
  { unfold ok_data_header. cbn [h ack_header dh_subtype dh_flags dh_duration dh_a1 dh_a2 dh_a3 dh_seq dh_a4 dh_qos dh_ht].
    assert (S : u16 (16 * (tx_number tx mod 4096))%N) by (unfold u16; pose proof (N.mod_lt (tx_number tx) 4096); lia).
    destruct (tx_again tx); repeat split; try reflexivity; try exact S; try apply Af; try apply At; repeat constructor. }
  assert (PO : payload_ok h (Some (c_bytes m)) m) by (split; [reflexivity|split; [exact Wm|apply c_bytes_T]]).
  set (buf := repeat 0%N (length (enc_frame true (enc_data h m)) + slack)).
  assert (Room : length (enc_frame true (enc_data h m)) + slack <= length buf) by (unfold buf; rewrite repeat_length; constructor).
  destruct (data_round_trip _ _ _ true Hh PO) as (Wt & _ & _). destruct (written_at _ _ _ Wt Room) as (buf' & n & Wr & F).
  unfold data_frame. fold h. rewrite <- F.
  refine (transmitted from to tx m rest h (c_bytes m) buf buf' n E Hh eq_refl eq_refl eq_refl _ PO Room Wr). cbn [h ack_header dh_flags]. now destruct (tx_again tx).
Qed.
Lemma can_answer to : address to -> answer_frame (C_Ack 0 0 to) (ack_frame to).
Proof.
  intros A. assert (O : ok_ctrl (C_Ack 0 0 to)) by (split; [reflexivity|split; [reflexivity|exact A]]).
  destruct (ctrl_written _ O) as (x & _ & L & W & Wg & _). rewrite L in W, Wg. set (c := C_Ack 0 0 to) in *. cbn [c ctrl_subtype ctrl_flags] in W, Wg.
  change (ctrl_subtype_into_bits Ct_Ack) with 13%N in W, Wg. set (g := enc_fcf 1 13 0 ++ enc_ctrl c) in *.
  assert (Lg : length g = 2 + length (enc_ctrl c)) by (unfold g; now rewrite app_length).
  set (buf := repeat 0%N (2 + length (enc_ctrl c) + slack)).
  destruct (written_at (wr_control c) g buf W) as (buf' & n & Wr & F); [unfold buf; rewrite repeat_length, Lg; constructor|].
  change (ack_frame to) with (g ++ le_bytes 4 (crc32 g)). rewrite <- F at 1. apply (answered_with c buf buf' n).
  - unfold buf. rewrite repeat_length. constructor.
  - exact Wr.
  - rewrite F. now apply fcs_standard.
Qed.
Theorem can_go_on from to tx : tx_todo tx <> [] -> Forall wf_bytes (tx_todo tx) -> address from -> address to ->
  (exists f, transmission from to tx f) /\ exists a, answer_frame (C_Ack 0 0 from) a.
Proof.
  intros N W Af At. split; [|eexists; now apply can_answer]. destruct (tx_todo tx) as [|m rest] eqn:E; [congruence|]. inversion W. eexists. now apply (can_transmit from to tx m rest).
Qed.
End F.

(** ** Two messages; the first has the number 4095, the second again 0 *)
Definition ack_a : bytes := repeat 2%N 6.
Definition ack_b : bytes := repeat 4%N 6.
Definition two_messages : list bytes := [[1; 2; 3]; [4; 5]]%N.
Definition frame1 : bytes := Eval vm_compute in data_frame ack_a ack_b 4095 false [1; 2; 3]%N.
Definition frame1_again : bytes := Eval vm_compute in data_frame ack_a ack_b 4095 true [1; 2; 3]%N.
Definition frame2 : bytes := Eval vm_compute in data_frame ack_a ack_b 4096 false [4; 5]%N.
Definition frame2_again : bytes := Eval vm_compute in data_frame ack_a ack_b 4096 true [4; 5]%N.
Definition ack : bytes := Eval vm_compute in ack_frame ack_a.
(** for somebody else *)
Definition other_ack : bytes := Eval vm_compute in ack_frame (repeat 6%N 6).
Definition broken2 : bytes := Eval vm_compute in firstn 24 frame2 ++ [9]%N ++ skipn 25 frame2.
(** the answer is lost; it arrives; the second message is damaged, while the sender hears an acknowledgement for somebody else; it arrives *)
Definition four_attempts : list (option bytes * option bytes) := [(Some frame1, None); (Some frame1_again, Some ack); (Some broken2, Some other_ack); (Some frame2_again, Some ack)].
Definition four_answers : list (option ControlFrame) := [Some (C_Ack 0 0 ack_a); Some (C_Ack 0 0 ack_a); None; Some (C_Ack 0 0 ack_a)].
Section F2.
Context {cfg : Cfg}.
Lemma ack_typed : typed_arms [data_arm ack_a ack_b].
Proof. split; [cbn; repeat constructor; cbn; intuition discriminate|]. repeat constructor; eexists; reflexivity. Qed.
Lemma ack_addresses : address ack_a /\ address ack_b.
Proof. split; (split; [reflexivity|apply wf_bytesb_spec; reflexivity]). Qed.
Lemma broken2_damaged : damaged frame2 broken2.
Proof.
  split; [apply wf_bytesb_spec; vm_compute; reflexivity|]. split; [apply wf_bytesb_spec; vm_compute; reflexivity|]. split; [vm_compute; reflexivity|].
  split; [intros Z; apply (f_equal (fun x => nth 24 x 0%N)) in Z; vm_compute in Z; discriminate Z|]. left. exists 192.
  intros i Hi. refine (differsb_spec (seq 192 32) frame2 broken2 _ _ i _); [vm_compute; reflexivity|vm_compute; reflexivity|]. rewrite in_seq. lia.
Qed.
Lemma frames_transmitted rest : transmission ack_a ack_b (mkTx ([1; 2; 3]%N :: rest) 4095 false) frame1 /\ transmission ack_a ack_b (mkTx ([1; 2; 3]%N :: rest) 4095 true) frame1_again /\
  transmission ack_a ack_b (mkTx ([4; 5]%N :: rest) 4096 false) frame2 /\ transmission ack_a ack_b (mkTx ([4; 5]%N :: rest) 4096 true) frame2_again.
Proof.
  destruct ack_addresses as (A & B). assert (W1 : wf_bytes [1; 2; 3]%N) by (apply wf_bytesb_spec; reflexivity). assert (W2 : wf_bytes [4; 5]%N) by (apply wf_bytesb_spec; reflexivity).
  assert (E : data_frame ack_a ack_b 4095 false [1; 2; 3]%N = frame1 /\ data_frame ack_a ack_b 4095 true [1; 2; 3]%N = frame1_again /\
    data_frame ack_a ack_b 4096 false [4; 5]%N = frame2 /\ data_frame ack_a ack_b 4096 true [4; 5]%N = frame2_again) by (vm_compute; auto).
  destruct E as (<- & <- & <- & <-). repeat split; now apply (can_transmit ack_a ack_b (mkTx (_ :: rest) _ _) _ rest).
Qed.
Lemma ack_answer : answer_frame (C_Ack 0 0 ack_a) ack.
Proof. assert (E : ack_frame ack_a = ack) by (vm_compute; reflexivity). rewrite <- E. now apply can_answer, ack_addresses. Qed.
Lemma ack_for_other : for_others ack_a (Some other_ack).
Proof.
  assert (O : ok_ctrl (C_Ack 0 0 (repeat 6%N 6))) by (split; [reflexivity|split; [reflexivity|split; [reflexivity|apply wf_bytesb_spec; reflexivity]]]).
  exists (repeat 6%N 6), 0%N, other_ack. split; [exact (ReserveFacts2.ctrl_wrote (C_Ack 0 0 (repeat 6%N 6)) _ _ O eq_refl)|]. split; [discriminate|now left].
Qed.
Lemma four_channel : bad_channel [data_arm ack_a ack_b] ack_a ack_b (mkTx two_messages 4095 false) four_attempts four_answers 2.
Proof.
  unfold two_messages. destruct (frames_transmitted [[4; 5]%N]) as (T1 & T2 & _). destruct (frames_transmitted []) as (_ & _ & T3 & T4).
  refine (answer_spoilt _ _ _ _ frame1 ack None _ _ _ T1 ack_answer (or_introl I) _). refine (answer_heard _ _ _ _ frame1_again ack _ _ _ T2 ack_answer _).
  refine (frame_spoilt _ _ _ _ frame2 (Some broken2) (Some other_ack) _ _ _ T3 broken2_damaged ack_for_other _). refine (answer_heard _ _ _ _ frame2_again ack _ _ _ T4 ack_answer _). constructor.
Qed.
End F2.
