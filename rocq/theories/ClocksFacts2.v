(** Stations that set their clocks by each other's beacons: three stations, of which two cannot hear each other's undamaged beacons. *)
From Verif Require Import Base SpecBase BaseFacts Common Elements SpecElements ElementsFacts SpecElementTypes Mgmt SpecMgmt MgmtFacts MgmtFacts2 Generic SpecGeneric
  SpecDelivery DeliveryFacts SpecNoise NoiseFacts FcsFacts ScanFacts2 RatesFacts2 SpecClocks ClocksFacts.

Definition three_clocks : Clocks := fun s => match s with 0 => 500%N | 1 => 900%N | 2 => 300%N | _ => 0%N end.
Definition our_network : bytes := repeat 2%N 6.
Definition time_header (a network : bytes) : MgmtHeader := mkMH 0 0 (repeat 255%N 6) a network 0x1230 None.
Definition time_air (a network : bytes) (timestamp : N) : bytes :=
  enc_frame true (enc_mgmt 8 (time_header a network) (le_bytes 8 timestamp ++ le_bytes 2 100 ++ le_bytes 2 2 ++ [0; 2; 72; 111]%N)).
(** by the second station at 1000, by the first at 2000, when it has heard the second, and by a stranger of another network *)
Definition beacon1 : bytes := Eval vm_compute in time_air (repeat 11%N 6) our_network 1900.
Definition beacon2 : bytes := Eval vm_compute in time_air (repeat 10%N 6) our_network 2900.
Definition strange_beacon : bytes := Eval vm_compute in time_air (repeat 19%N 6) (repeat 4%N 6) 99999.
Definition broken1 : bytes := Eval vm_compute in firstn 30 beacon1 ++ [1]%N ++ skipn 31 beacon1.
Definition three_air : list (N * list (nat * bytes)) :=
  [(1000%N, [(0, beacon1); (2, broken1)]); (1500%N, [(0, strange_beacon); (2, strange_beacon)]); (2000%N, [(1, beacon2); (2, beacon2)])].
Definition time_body {cfg : Cfg} (timestamp : N) : BeaconLikeBody Container := mkBeacon timestamp 100 2 (c_read_elements [0; 2; 72; 111]%N).

Section F.
Context {cfg : Cfg}.
Lemma ours_typed : typed_arms [beacon_arm our_network].
Proof. split; [cbn; repeat constructor; cbn; intuition discriminate|]. repeat constructor; eexists; reflexivity. Qed.
Lemma time_header_ok a network : address a -> address network -> ok_mgmt_header (time_header a network).
Proof. intros A B. repeat split; cbn; try reflexivity; try apply A; try apply B; repeat constructor. Qed.
Lemma beacon1_at : beacon_at our_network 1900 beacon1.
Proof.
  set (b := beacon1). change b with (firstn (length beacon1) (beacon1 ++ repeat 0%N (100 - length beacon1))).
  refine (written_at our_network 1900 (time_header (repeat 11%N 6) our_network) (time_body 1900) [0; 2; 72; 111]%N (repeat 0%N 100) _ _
    (time_header_ok _ _ (addr_ok 11 eq_refl) (addr_ok 2 eq_refl)) eq_refl (conj eq_refl (conj eq_refl eq_refl)) eq_refl _ (c_read_elements_W _) _ _ _).
  - apply wf_bytesb_spec. reflexivity.
  - right. discriminate.
  - rewrite repeat_length. unfold slack. destruct strict_end; vm_compute; lia.
  - destruct cfg as [[] [] []]; vm_compute; reflexivity.
Qed.
Lemma beacon2_at : beacon_at our_network 2900 beacon2.
Proof.
  set (b := beacon2). change b with (firstn (length beacon2) (beacon2 ++ repeat 0%N (100 - length beacon2))).
  refine (written_at our_network 2900 (time_header (repeat 10%N 6) our_network) (time_body 2900) [0; 2; 72; 111]%N (repeat 0%N 100) _ _
    (time_header_ok _ _ (addr_ok 10 eq_refl) (addr_ok 2 eq_refl)) eq_refl (conj eq_refl (conj eq_refl eq_refl)) eq_refl _ (c_read_elements_W _) _ _ _).
  - apply wf_bytesb_spec. reflexivity.
  - right. discriminate.
  - rewrite repeat_length. unfold slack. destruct strict_end; vm_compute; lia.
  - destruct cfg as [[] [] []]; vm_compute; reflexivity.
Qed.
Lemma strange_at : beacon_at (repeat 4%N 6) 99999 strange_beacon.
Proof.
  set (b := strange_beacon). change b with (firstn (length strange_beacon) (strange_beacon ++ repeat 0%N (100 - length strange_beacon))).
  refine (written_at (repeat 4%N 6) 99999 (time_header (repeat 19%N 6) (repeat 4%N 6)) (time_body 99999) [0; 2; 72; 111]%N (repeat 0%N 100) _ _
    (time_header_ok _ _ (addr_ok 19 eq_refl) (addr_ok 4 eq_refl)) eq_refl (conj eq_refl (conj eq_refl eq_refl)) eq_refl _ (c_read_elements_W _) _ _ _).
  - apply wf_bytesb_spec. reflexivity.
  - right. discriminate.
  - rewrite repeat_length. unfold slack. destruct strict_end; vm_compute; lia.
  - destruct cfg as [[] [] []]; vm_compute; reflexivity.
Qed.
Lemma broken1_damaged : damaged beacon1 broken1.
Proof.
  split; [apply wf_bytesb_spec; vm_compute; reflexivity|]. split; [apply wf_bytesb_spec; vm_compute; reflexivity|]. split; [vm_compute; reflexivity|].
  split; [intros Z; apply (f_equal (fun x => nth 30 x 0%N)) in Z; vm_compute in Z; discriminate Z|]. left. exists 240.
  intros i Hi. refine (differsb_spec (seq 240 32) beacon1 broken1 _ _ i _); [vm_compute; reflexivity|vm_compute; reflexivity|]. rewrite in_seq. lia.
Qed.
Lemma three_history : history [beacon_arm our_network] our_network three_clocks three_air [(1, [0]); (0, [1; 2])].
Proof.
  refine (beacon_sent _ _ three_clocks 1000 1 beacon1 _ [0] _ _ beacon1_at _ _).
  { apply undamaged_at, damaged_at; [exact broken1_damaged|constructor]. }
  refine (strange_beacon_sent _ _ _ 1500 strange_beacon (repeat 4%N 6) 99999 _ [0; 2] _ _ strange_at _ _ _); [discriminate| |].
  { apply undamaged_at, undamaged_at, nowhere. }
  refine (beacon_sent _ _ (take_later 900 [0] three_clocks) 2000 0 beacon2 _ [1; 2] _ _ beacon2_at _ (silence _ _ _)).
  apply undamaged_at, undamaged_at, nowhere.
Qed.
End F.
