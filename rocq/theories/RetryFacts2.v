(** Retransmissions: a small network, and what goes wrong on big endian machines. *)
From Verif Require Import Base BaseFacts SpecBase Crc SpecFcs FcsFacts Enums Common Elements SpecElements SpecElementTypes Mgmt SpecMgmt MgmtFacts2
  Data SpecData Generic SpecGeneric SpecPortable SpecDelivery SpecNoise SpecRetry RetryFacts.

(** all ways to choose two members of a list, with what is between them *)
Fixpoint befores {A} (l : list A) : list (list A * A) :=
  match l with [] => [] | d :: r => ([], d) :: map (fun '(b, x) => (d :: b, x)) (befores r) end.
Fixpoint pairs {A} (l : list A) : list (A * list A * A) :=
  match l with [] => [] | c :: r => map (fun '(b, d) => (c, b, d)) (befores r) ++ pairs r end.
Lemma befores_in {A} (b : list A) d e : In (b, d) (befores (b ++ d :: e)).
Proof.
  induction b as [|x b IH]; cbn [app befores]; [now left|]. right. apply in_map_iff. exists (b, d). auto.
Qed.
Lemma pairs_in {A} (a : list A) c b d e : In (c, b, d) (pairs (a ++ c :: b ++ d :: e)).
Proof.
  induction a as [|x a IH]; cbn [app pairs]; apply in_or_app; [left|right; exact IH].
  apply in_map_iff. exists (b, d). split; [reflexivity|apply befores_in].
Qed.
Lemma marked_pairs l : Forall (fun '(c, _, d) => copy_of d = copy_of c -> copy_retry d = true) (pairs l) -> marked l.
Proof.
  intros F a c b d e -> Z. rewrite Forall_forall in F. exact (F _ (pairs_in a c b d e) Z).
Qed.
Lemma one_by_one_pairs from l :
  Forall (fun '(c, b, d) => copy_of d = copy_of c -> Forall (fun x => from (copy_of x) = from (copy_of c) -> copy_of x = copy_of c) b) (pairs l) -> one_by_one from l.
Proof.
  intros F a c b d e x -> Z I. rewrite Forall_forall in F. pose proof (F _ (pairs_in a c b d e) Z) as G. rewrite Forall_forall in G. now apply G.
Qed.
Lemma next_pairs from l c d : next_of from l c d -> exists b, In (c, b, d) (pairs l) /\ copy_of c <> copy_of d /\ from (copy_of c) = from (copy_of d).
Proof. intros (a & b & e & -> & D & F & _). exists b. split; [apply pairs_in|auto]. Qed.
Lemma two_pairs {A} (x y : A) c b d : In (c, b, d) (pairs [x; y]) -> c = x /\ d = y.
Proof. cbn. intros [E|[]]. now injection E as <- _ <-. Qed.

(** the network: an access point [A] sends beacons, a station [B] data *)
Definition ap : bytes := repeat 2%N 6.
Definition sta : bytes := repeat 5%N 6.
Definition beacon_h (seq : N) : MgmtHeader := mkMH 0 0 (repeat 255%N 6) ap ap seq None.
Definition beacon_b {cfg : Cfg} (interval : N) : BeaconLikeBody Container := mkBeacon 5 interval 1 (c_bytes [3; 1; 6]%N).
Definition beacon_f {cfg : Cfg} (seq interval : N) : bytes := enc_frame true (enc_mgmt 8 (beacon_h seq) (fixed_beacon (beacon_b interval) ++ [3; 1; 6]%N)).
Definition data_h (from : bytes) (seq : N) : DataHeader := mkDH Dt_Data 1 0x2c2c ap from (repeat 3%N 6) seq None None None.
Definition data_f (from : bytes) (seq : N) : bytes := enc_frame true (enc_data (data_h from seq) [7; 7]%N).

Section Facts.
Context {cfg : Cfg}.
Definition beacon_arm : nat * Arm (Got N) := (0, mkArm _ _ (mgmt_kind Beacon) (rd_mgmt Beacon) (got_mgmt bb_interval)).
Definition data_arm : nat * Arm (Got N) :=
  (12, mkArm _ _ data_kind rd_data (got_data (fun p => match p with Some p => N.of_nat (length p) | None => 0%N end))).
Definition net_arms := [data_arm; beacon_arm].
Definition beacon_g (seq interval : N) : Got N := mkGot ap seq false interval.
Definition data_g (from : bytes) (seq : N) : Got N := mkGot from (if native_le then seq else swapped seq) false 2%N.
Lemma net_typed : typed_arms net_arms.
Proof.
  split; [repeat constructor; cbn; intros H; decompose [or] H; try discriminate; contradiction|].
  repeat constructor; eexists; reflexivity.
Qed.
Lemma beacon_message seq interval : u16 seq -> u16 interval -> message net_arms (beacon_f seq interval) (beacon_g seq interval).
Proof.
  intros S I.
  assert (Hh : ok_mgmt_header (beacon_h seq)) by (repeat split; try reflexivity; try exact S; repeat constructor).
  assert (Hb : ok_beacon (beacon_b interval)) by (repeat split; try reflexivity; exact I).
  assert (We : wf_bytes [3; 1; 6]%N) by (apply wf_bytesb_spec; reflexivity).
  assert (Wr : Writes (c_write (bb_elements (beacon_b interval))) [3; 1; 6]%N) by apply c_bytes_T.
  set (buf := repeat 0%N 60).
  assert (L : length (enc_frame true (enc_mgmt 8 (beacon_h seq) (fixed_beacon (beacon_b interval) ++ [3; 1; 6]%N))) + slack <= length buf).
  { unfold slack, enc_frame. rewrite app_length, le_bytes_length. unfold enc_mgmt, enc_mgmt_header, fixed_beacon. rewrite !app_length, !le_bytes_length.
    destruct strict_end; cbn; lia. }
  destruct (type_rt _ _ _ _ _ _ _ _ _ _ beacon_type (beacon_h seq) (beacon_b interval) _ true Hh Hb We Wr) as (Wt & _ & _).
  destruct (DeliveryFacts.written_at _ _ _ Wt L) as (b2 & n2 & E2 & F). unfold beacon_f. rewrite <- F.
  refine (message_mgmt net_arms _ _ Beacon _ _ _ _ _ _ _ bb_interval (beacon_h seq) (beacon_b interval) _ buf b2 n2 beacon_type _ Hh Hb We Wr _ L E2).
  - right. left. reflexivity.
  - right. right. discriminate.
Qed.
Lemma data_message from seq : address from -> u16 seq -> message net_arms (data_f from seq) (data_g from seq).
Proof.
  intros A S.
  assert (Hh : ok_data_header (data_h from seq)).
  { unfold ok_data_header. cbn [data_h dh_subtype dh_flags dh_duration dh_a1 dh_a2 dh_a3 dh_seq dh_a4 dh_qos dh_ht]. repeat split; try reflexivity; try exact S; try apply A; repeat constructor. }
  assert (PO : payload_ok (data_h from seq) (Some (c_bytes [7; 7]%N)) [7; 7]%N).
  { split; [reflexivity|]. split; [apply wf_bytesb_spec; reflexivity|apply c_bytes_T]. }
  set (buf := repeat 0%N 60).
  assert (L : length (enc_frame true (enc_data (data_h from seq) [7; 7]%N)) + slack <= length buf).
  { unfold slack, enc_frame. rewrite app_length, le_bytes_length. unfold enc_data, enc_data_header. rewrite !app_length, !le_bytes_length.
    cbn [data_h dh_a1 dh_a2 dh_a3]. destruct A as [-> _]. destruct strict_end; cbn; lia. }
  destruct (DataFacts2.data_round_trip _ _ _ true Hh PO) as (Wt & _ & _).
  destruct (DeliveryFacts.written_at _ _ _ Wt L) as (b2 & n2 & E2 & F). unfold data_f. rewrite <- F.
  replace (data_g from seq) with (got_data (fun p => match p with Some p => N.of_nat (length p) | None => 0%N end)
    (if native_le then data_h from seq else swapped_header (data_h from seq), Some [7; 7]%N)) by (unfold data_g; destruct native_le; reflexivity).
  refine (message_data net_arms _ (data_h from seq) (Some (c_bytes [7; 7]%N)) [7; 7]%N buf b2 n2 _ Hh PO L E2). left. reflexivity.
Qed.

(** Sequence number 1 in a data frame is read as 256 on a big endian machine; beacon number 256 of the same transmitter is taken for a repetition. *)
Lemma once_big_endian : native_le = false -> exists (l : list (nat * Arm (Got N))) frames got copies counter,
  typed_arms l /\ Forall (fun c => message l (frames (copy_of c)) (got (copy_of c)) /\ got_retry (got (copy_of c)) = false) copies /\
  Forall (heard_or_damaged frames) copies /\ (let arrived := filter (intact frames) copies in
  marked arrived /\ one_by_one (fun k => got_from (got k)) arrived /\ counted counter frames (fun k => got_from (got k)) arrived /\
  exists gots, station (map snd l) (map heard copies) = Ok gots /\
    without_repeats [] gots <> map (fun k => got_what (got k)) (once [] (map copy_of arrived))).
Proof.
  intros NB. set (frames := fun k => match k with 0 => data_f ap 0x10 | _ => beacon_f 0x1000 100 end).
  set (got := fun k => match k with 0 => data_g ap 0x10 | _ => beacon_g 0x1000 100 end).
  set (copies := [mkCopy 0 false (frames 0); mkCopy 1 true (again (frames 1))]).
  assert (M : Forall (fun c => message net_arms (frames (copy_of c)) (got (copy_of c)) /\ got_retry (got (copy_of c)) = false) copies).
  { apply Forall_cons; [|apply Forall_cons; [|apply Forall_nil]]; (split; [|reflexivity]).
    - apply data_message; [split; [reflexivity|apply wf_bytesb_spec; reflexivity]|reflexivity].
    - apply beacon_message; reflexivity. }
  assert (H : Forall (heard_or_damaged frames) copies).
  { apply Forall_cons; [|apply Forall_cons; [|apply Forall_nil]]; left; reflexivity. }
  assert (E : filter (intact frames) copies = copies) by (vm_compute; reflexivity).
  exists net_arms, frames, got, copies, (fun k => match k with 0 => 1%N | _ => 256%N end).
  split; [exact net_typed|]. split; [exact M|]. split; [exact H|]. cbv zeta. rewrite E.
  split; [apply marked_pairs; constructor; [intros Z; discriminate Z|constructor]|]. split; [apply one_by_one_pairs; constructor; [constructor|constructor]|]. split.
  - split.
    + intros c [<-|[<-|[]]]; vm_compute; reflexivity.
    + intros c d Hn. apply next_pairs in Hn. destruct Hn as (b & I & _). apply two_pairs in I. destruct I as [-> ->]. split; reflexivity.
  - exists (map (got_copy got) copies). split.
    + rewrite <- E at 2. apply (NoiseFacts.through_noise _ net_arms); [exact net_typed|]. now apply copies_channel.
    + unfold copies, got, got_copy, data_g. rewrite NB. vm_compute. discriminate.
Qed.
End Facts.
