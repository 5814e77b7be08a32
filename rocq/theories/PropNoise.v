(** C02, continued, and C79: damaged frames and the readers. *)
From Verif Require Import Base BaseFacts SpecBase Crc SpecFcs CrcFacts FcsFacts Enums Common Elements SpecElements ElementTypes SpecElementTypes Mgmt SpecMgmt
  MgmtFacts2 Data SpecData Generic SpecGeneric SpecPortable SpecDelivery SpecNoise NoiseFacts.

(** ** C02: no reader takes a damaged frame *)
(** If [r] is a [damaged] copy (SpecNoise.v) of a frame [s] with a valid frame check sequence, then the generic view, every management frame type, data
    frames and [match_frames!] with any arms refuse it with an error. *)
Theorem C02_refused : forall (cfg : Cfg) (s r : bytes), damaged s r -> (exists body, strip_and_validate_fcs s = Ok body) ->
  (exists e, gf_new r true = Err e) /\ (forall W R (t : BodyType W R), exists e, rd_mgmt t true r = Err e) /\ (exists e, rd_data true r = Err e) /\
  (forall A (arms : list (Arm A)), exists e, match_frames r (Some true) arms = Err e).
Proof. exact @refused. Qed.
Print Assumptions C02_refused.

(** ** C79: a receiver behind a noisy channel *)
(** Whatever is sent, and whatever arrives of it as intact or damaged copies, in any number and order, for any length of time: the blocks of the receiver
    are run for exactly the intact copies, in the order of arrival and with the values of the senders. *)
Theorem C79_noise : forall (cfg : Cfg) A (l : list (nat * Arm A)) air due, typed_arms l -> channel l air due -> station (map snd l) air = Ok due.
Proof. exact @through_noise. Qed.
Print Assumptions C79_noise.
(** a beacon and a data frame, each once intact and once damaged: by a burst of 32 bits and by three scattered bits *)
Example C79_ex (cfg : Cfg) :
  let h := mkMH 0x40 300 (repeat 1%N 6) (repeat 2%N 6) (repeat 3%N 6) 0x1230 None in
  let b := mkBeacon 5 100 1 (c_bytes [3; 1; 6]%N) in
  let dh := mkDH Dt_QoSData 1 0x2c2c (repeat 1%N 6) (repeat 2%N 6) (repeat 3%N 6) 0x3030 None (Some [5; 0]%N) None in
  let l := [(12, mkArm _ _ data_kind rd_data (fun x => match snd x with Some p => N.of_nat (length p) | None => 0%N end));
            (0, mkArm _ _ (mgmt_kind Beacon) (rd_mgmt Beacon) (fun x => bb_interval (snd x)))] in
  exists f g f' g', sent l f 100%N /\ sent l g 2%N /\ damaged f f' /\ damaged g g' /\
    channel l [f'; g; g'; f; f'] [2; 100]%N /\ station (map snd l) [f'; g; g'; f; f'] = Ok [2; 100]%N.
Proof.
  intros h b dh l.
  set (f := enc_frame true (enc_mgmt 8 h (fixed_beacon b ++ [3; 1; 6]%N))).
  set (g := enc_frame true (enc_data dh [7; 7]%N)).
  assert (F : exists buf', wr_mgmt Beacon h b true (repeat 0%N 60) = Ok (buf', length f) /\ firstn (length f) buf' = f).
  { exists (f ++ skipn (length f) (repeat 0%N 60)). split; [|vm_compute; reflexivity]. destruct cfg as [[] [] []]; vm_compute; reflexivity. }
  assert (G : exists buf', wr_data (dh, Some (c_bytes [7; 7]%N)) true (repeat 0%N 60) = Ok (buf', length g) /\ firstn (length g) buf' = g).
  { exists (g ++ skipn (length g) (repeat 0%N 60)). split; [|vm_compute; reflexivity]. destruct cfg as [[] [] []]; vm_compute; reflexivity. }
  set (f' := (firstn 30 f ++ [255; 254; 7; 200] ++ skipn 34 f)%N).
  set (g' := (firstn 1 g ++ [129] ++ firstn 3 (skipn 2 g) ++ [5] ++ firstn 5 (skipn 6 g) ++ [3] ++ skipn 12 g)%N).
  assert (SF : sent l f 100%N).
  { destruct F as (buf' & E & <-). refine (sent_mgmt l _ _ Beacon _ _ _ _ _ _ _ (fun x => bb_interval (snd x)) h b [3; 1; 6]%N (repeat 0%N 60) buf' _ beacon_type _ _ _ _ _ _ _ E).
    - right. left. reflexivity.
    - repeat split; try reflexivity; repeat constructor.
    - repeat split; reflexivity.
    - apply wf_bytesb_spec. reflexivity.
    - apply c_bytes_T.
    - right. right. discriminate.
    - unfold slack. destruct strict_end; vm_compute; lia. }
  assert (SG : sent l g 2%N).
  { destruct G as (buf' & E & <-).
    refine (sent_data l (fun x => match snd x with Some p => N.of_nat (length p) | None => 0%N end) dh (Some (c_bytes [7; 7]%N)) [7; 7]%N (repeat 0%N 60) buf' _ _ _ _ _ E).
    - left. reflexivity.
    - repeat split; try reflexivity; repeat constructor.
    - split; [reflexivity|]. split; [apply wf_bytesb_spec; reflexivity|apply c_bytes_T].
    - unfold slack. destruct strict_end; vm_compute; lia. }
  assert (DF : damaged f f').
  { split; [apply wf_bytesb_spec; vm_compute; reflexivity|]. split; [apply wf_bytesb_spec; vm_compute; reflexivity|]. split; [vm_compute; reflexivity|].
    split; [intros Z; apply (f_equal (fun x => nth 30 x 0%N)) in Z; vm_compute in Z; discriminate Z|]. left. exists 240.
    intros i Hi. refine (differsb_spec (seq 240 32) f f' _ _ i _); [vm_compute; reflexivity|vm_compute; reflexivity|]. rewrite in_seq. lia. }
  assert (DG : damaged g g').
  { split; [apply wf_bytesb_spec; vm_compute; reflexivity|]. split; [apply wf_bytesb_spec; vm_compute; reflexivity|]. split; [vm_compute; reflexivity|].
    split; [intros Z; apply (f_equal (fun x => nth 1 x 0%N)) in Z; vm_compute in Z; discriminate Z|]. right. exists [15; 42; 88].
    split; [right; left; vm_compute; split; [lia|discriminate]|].
    exact (differsb_spec [15; 42; 88] g g' eq_refl ltac:(vm_compute; reflexivity)). }
  assert (C : channel l [f'; g; g'; f; f'] [2; 100]%N).
  { apply (channel_damaged l f 100%N f'); [exact SF|exact DF|]. apply channel_intact; [exact SG|].
    apply (channel_damaged l g 2%N g'); [exact SG|exact DG|]. apply channel_intact; [exact SF|].
    apply (channel_damaged l f 100%N f'); [exact SF|exact DF|]. constructor. }
  exists f, g, f', g'. split; [exact SF|]. split; [exact SG|]. split; [exact DF|]. split; [exact DG|]. split; [exact C|].
  refine (through_noise _ l _ _ _ C).
  split; [cbn; repeat constructor; cbn; intuition discriminate|repeat constructor; eexists; reflexivity].
Qed.
