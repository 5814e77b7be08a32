(** C87: fragmentation and reassembly. *)
From Verif Require Import Base BaseFacts SpecBase Crc SpecFcs FcsFacts Enums Common Elements SpecElements SpecElementTypes Mgmt SpecMgmt Data SpecData Generic SpecGeneric
  SpecPortable SpecDelivery SpecNoise SpecAccessors SpecFragment FragmentFacts FragmentFacts2 FragmentFacts3 RetryFacts2.

(** ** C87 *)
(** Every piece is written as the frame of its header and its bytes, into any large enough buffer. *)
Theorem C87_sent : forall (cfg : Cfg) m i retry buf, ok_split m -> i < pieces_of m -> length (piece_frame m i retry) + slack <= length buf ->
  send_piece m i retry buf = Ok (piece_frame m i retry).
Proof. exact @piece_sent. Qed.
Print Assumptions C87_sent.
(** Whatever is lost, damaged, repeated or in between, for any number of senders and for any length of time: the receiver puts together exactly the messages
    of which all pieces arrived, with their bytes and transmitters, in the order in which they were completed. *)
Theorem C87_reassembled : forall (cfg : Cfg) (l : list (nat * Arm (option Piece))) messages air copies counter, native_le = true -> typed_arms l ->
  In (12, mkArm _ _ data_kind rd_data got_piece) l -> heard_air l messages air copies ->
  (let from k := dh_a2 (sp_header (messages k)) in
   pieces_marked copies -> pieces_ordered from copies -> messages_counted counter messages from copies ->
   exists ps, station (map snd l) air = Ok ps /\
     reassemble [] ps = map (fun k => (from k, concat (sp_pieces (messages k)))) (finished (fun k => pieces_of (messages k)) [] copies)).
Proof. exact @reassembled. Qed.
Print Assumptions C87_reassembled.
(** These are the messages of which all pieces are there, each once. *)
Theorem C87_finished : forall size from copies, pieces_ordered from copies ->
  NoDup (finished size [] copies) /\
  forall k, In k (finished size [] copies) <-> 1 <= size k /\ forall i, i < size k -> exists c, In c copies /\ of_message c = k /\ of_piece c = i.
Proof. exact @finished_all. Qed.
Print Assumptions C87_finished.
(** On big endian machines the fragment number is read from the wrong byte, and messages are lost. *)
Theorem C87_big_endian_refuted : forall (cfg : Cfg), native_le = false -> exists (l : list (nat * Arm (option Piece))) messages air copies counter, typed_arms l /\
  In (12, mkArm _ _ data_kind rd_data got_piece) l /\ heard_air l messages air copies /\
  (let from k := dh_a2 (sp_header (messages k)) in
   pieces_marked copies /\ pieces_ordered from copies /\ messages_counted counter messages from copies /\
   exists ps, station (map snd l) air = Ok ps /\ length (finished (fun k => pieces_of (messages k)) [] copies) = 1 /\ reassemble [] ps = []).
Proof. exact @reassembled_big_endian. Qed.
Print Assumptions C87_big_endian_refuted.
(** Message 0 of a station is in three pieces, the second one damaged and sent twice again; the access point's message 1 is sent in between, and of the
    station's message 2 the first piece is lost. *)
Example C87_ex (cfg : Cfg) :
  let messages k := match k with 0 => split_of sta 4095 [[1; 2]; [3]; [4; 5]]%N | 1 => split_of ap 9 [[6]; [7]]%N | _ => split_of sta 0 [[8]; [9]]%N end in
  let f := copy_piece_frame messages in
  let hurt := firstn 10 (f (mkPC 0 1 false)) ++ [255; 254; 7; 200]%N ++ skipn 14 (f (mkPC 0 1 false)) in
  let copies := [mkPC 0 0 false; mkPC 1 0 false; mkPC 0 1 true; mkPC 0 1 true; mkPC 0 2 false; mkPC 2 1 false; mkPC 1 1 true] in
  let air := f (mkPC 0 0 false) :: f (mkPC 1 0 false) :: hurt :: map f (tl (tl copies)) in
  let from k := dh_a2 (sp_header (messages k)) in
  typed_arms data_only /\ In (12, mkArm _ _ data_kind rd_data got_piece) data_only /\ heard_air data_only messages air copies /\
  pieces_marked copies /\ pieces_ordered from copies /\ messages_counted (fun k => match k with 0 => 4095%N | 1 => 9%N | _ => 4096%N end) messages from copies /\
  (native_le = true -> exists ps, station (map snd data_only) air = Ok ps /\ length ps = 7 /\ reassemble [] ps = [(sta, [1; 2; 3; 4; 5]%N); (ap, [6; 7]%N)]).
Proof.
  intros messages f hurt copies air from.
  assert (OK : forall k, ok_split (messages k)).
  { intros [|[|k]]; apply split_ok; try (split; [reflexivity|apply wf_bytesb_spec; reflexivity]); try reflexivity; try (cbn; lia); repeat constructor. }
  assert (H : heard_air data_only messages air copies).
  { unfold air, copies. cbn [tl map]. do 2 (apply air_copy; [apply OK|cbn; lia|]). apply (air_hurt _ _ (mkPC 0 1 false)); [apply OK|cbn; lia| |].
    - split; [apply wf_bytesb_spec; vm_compute; reflexivity|]. split; [apply wf_bytesb_spec; vm_compute; reflexivity|]. split; [vm_compute; reflexivity|].
      split; [intros Z; apply (f_equal (fun x => nth 10 x 0%N)) in Z; vm_compute in Z; discriminate Z|]. left. exists 80.
      intros i Hi. refine (differsb_spec (seq 80 32) _ _ _ _ i _); [vm_compute; reflexivity|vm_compute; reflexivity|]. rewrite in_seq. lia.
    - do 5 (apply air_copy; [apply OK|cbn; lia|]). constructor. }
  assert (M : pieces_marked copies) by (apply marked_check; vm_compute; reflexivity).
  assert (O : pieces_ordered from copies) by (apply ordered_check; vm_compute; reflexivity).
  assert (C : messages_counted (fun k => match k with 0 => 4095%N | 1 => 9%N | _ => 4096%N end) messages from copies).
  { split.
    - intros c I. cbn [copies In] in I. decompose [or] I; try contradiction; subst c; reflexivity.
    - intros c d F. apply (following_check (fun k => match k with 0 => 4095%N | 1 => 9%N | _ => 4096%N end) from copies); [vm_compute; reflexivity|exact F]. }
  split; [exact data_only_typed|]. split; [now left|]. split; [exact H|]. split; [exact M|]. split; [exact O|]. split; [exact C|].
  intros NL.
  destruct (reassembled data_only messages air copies _ NL data_only_typed (or_introl eq_refl) H M O C) as (ps & St & R).
  exists ps. split; [exact St|]. split; [|rewrite R; vm_compute; reflexivity].
  clear - St NL. destruct cfg as [[] n []]; cbn in NL; subst n; vm_compute in St; injection St as <-; reflexivity.
Qed.
