(** C04, C28 and C44: frames of unknown type, control frames. *)
From Coq Require Import Permutation.
From Verif Require Import Base SpecBase Enums Common Crc SpecCommon SpecElementTypes Mgmt SpecMgmt MgmtFacts5
  Data SpecData Control Generic SpecGeneric GenericFacts GenericFacts2 GenericFacts3 GenericFacts4.

(** ** C04: fields at fixed places *)
(** What is accepted: at least ten bytes, behind a correct frame check sequence if there is one.
    (With a frame check sequence, fewer than four bytes are not refused but panic.) *)
Theorem C04_new_partial : forall (cfg : Cfg) bs, wf_bytes bs ->
  (gf_new bs false = if length bs <? 10 then Err BadInput else Ok bs) /\
  match gf_new bs true with
  | Ok g => bs = g ++ le_bytes 4 (crc32 g) /\ 10 <= length g
  | Err _ => 4 <= length bs /\ forall g, bs = g ++ le_bytes 4 (crc32 g) -> length g < 10
  | Panic => length bs < 4
  end.
Proof. exact @gf_new_spec. Qed.
Print Assumptions C04_new_partial.
Theorem C04_new_refuted : forall (cfg : Cfg), exists bs, wf_bytes bs /\ gf_new bs true = Panic.
Proof. exact @new_panics. Qed.
Print Assumptions C04_new_refuted.
(** All accessors on all accepted frames. Four control subtypes with a second address are missed; the
    sequence control field is only right on little endian machines. *)
Theorem C04_partial : forall (cfg : Cfg) g, wf_bytes g -> 10 <= length g ->
  gf_fcf g = Ok (le_val (firstn 2 g)) /\ gf_duration g = Ok (le_val (firstn 2 (skipn 2 g))) /\
  gf_address_1 g = Ok (firstn 6 (skipn 4 g)) /\
  gf_address_2 g = Ok (if has_second_address g && negb (missed_second_address g) then field_at 6 10 g else None) /\
  gf_address_3 g = Ok (if mgmt_or_data g then field_at 6 16 g else None) /\
  (exists o, gf_sequence_control g = Ok o /\
     (native_le = true -> o = if mgmt_or_data g then option_map le_val (field_at 2 22 g) else None)).
Proof. exact @accessors. Qed.
Print Assumptions C04_partial.
Theorem C04_address_2_refuted : forall (cfg : Cfg), exists g, wf_bytes g /\ 10 <= length g /\ has_second_address g = true /\
  field_at 6 10 g <> None /\ gf_address_2 g = Ok None.
Proof. exact @rts_second_address. Qed.
Print Assumptions C04_address_2_refuted.
Theorem C04_sequence_refuted : forall (cfg : Cfg), native_le = false -> exists g o, wf_bytes g /\ 10 <= length g /\ mgmt_or_data g = true /\
  gf_sequence_control g = Ok o /\ o <> option_map le_val (field_at 2 22 g).
Proof. exact @sequence_big_endian. Qed.
Print Assumptions C04_sequence_refuted.
Example C04_ex (cfg : Cfg) : wf_bytesb beacon_like = true /\ length beacon_like = 24 /\ mgmt_or_data beacon_like = true /\
  gf_address_2 beacon_like = Ok (Some (repeat 7%N 6)) /\
  gf_new (beacon_like ++ le_bytes 4 (crc32 beacon_like)) true = Ok beacon_like.
Proof. split; [reflexivity|]. split; [reflexivity|]. split; [reflexivity|]. split; [destruct cfg as [[] [] []]; reflexivity|destruct cfg as [[] [] []]; vm_compute; reflexivity]. Qed.

(** ** C44: which type a frame is *)
(** Each of the library's types matches exactly the frames it stands for ([kinds], SpecGeneric.v), and
    the test never panics. *)
Theorem C44_matches : forall (cfg : Cfg) k P g, In (k, P) (raw_kind :: kinds) -> wf_bytes g -> 10 <= length g ->
  exists b, gf_matches k g = Ok b /\ (b = true <-> P g).
Proof. exact @kinds_match. Qed.
Print Assumptions C44_matches.
(** What a type answers when asked about the body of an action frame ([read_action_body_matches]) is whether it stands for that frame; types of frames
    that are not action frames say no. *)
Theorem C44_action_matches : forall (cfg : Cfg) k P g b0 rest, In (k, P) (raw_kind :: kinds) -> is_mgmt 13 g -> mgmt_body g = b0 :: rest ->
  exists b, fk_action_matches k (mkRA (category_from_bits b0) rest) = Ok b /\ (b = true <-> P g).
Proof. exact @action_answers. Qed.
Print Assumptions C44_action_matches.
Example C44_action_matches_ex (cfg : Cfg) :
  let g := ([0xd0; 0] ++ repeat 1 22 ++ [15; 2; 9])%N in is_mgmt 13 g /\ mgmt_body g = [15; 2; 9]%N /\ is_action [15; 2]%N g /\ ~ is_mgmt 8 g /\
  fk_action_matches (mgmt_kind MeshPeeringConfirm) (mkRA (category_from_bits 15%N) [2; 9]%N) = Ok true /\
  fk_action_matches (mgmt_kind Beacon) (mkRA (category_from_bits 15%N) [2; 9]%N) = Ok false.
Proof.
  split; [split; reflexivity|]. split; [reflexivity|]. split; [split; [split; reflexivity|split; [discriminate|exists [9]%N; reflexivity]]|].
  split; [intros [_ Z]; discriminate Z|]. split; [destruct cfg as [[] [] []]; vm_compute; reflexivity|reflexivity].
Qed.
(** no frame has two types *)
Theorem C44_exclusive : forall (cfg : Cfg) i j k P k' P' g,
  nth_error kinds i = Some (k, P) -> nth_error kinds j = Some (k', P') -> P g -> P' g -> i = j.
Proof. exact @kinds_exclusive. Qed.
Print Assumptions C44_exclusive.
Theorem C44_parse : forall (cfg : Cfg) A k P (r : bool -> reader A) g, In (k, P) (raw_kind :: kinds) -> wf_bytes g -> 10 <= length g ->
  (P g -> gf_parse k r g = (x <- pread (r false) g 0 ;; Ok (Some x))) /\ (~ P g -> gf_parse k r g = Ok None).
Proof. exact @parse_exact. Qed.
Print Assumptions C44_parse.
(** parsing a data frame gives the subtype and flags of the frame, and the payload behind the header;
    frames shorter than their header are errors *)
Theorem C44_data : forall (cfg : Cfg) g, wf_bytes g -> 10 <= length g -> is_type 2 g ->
  let n := data_header_size (byte g 0) (byte g 1) in
  (n <= length g -> exists h, subtype_number h = frame_subtype_bits g /\ dh_flags h = byte g 1 /\
     pread (rd_data false) g 0 = Ok (h, if std_has_payload (frame_subtype_bits g) then Some (data_payload g) else None)) /\
  (length g < n -> exists e, pread (rd_data false) g 0 = Err e).
Proof. exact @rd_data_any. Qed.
Print Assumptions C44_data.
(** A [match_frames!] over different types runs the block of the one type the frame has, on what is
    parsed, and is an error if there is none. *)
Theorem C44_dispatch : forall (cfg : Cfg) A (l : list (nat * Arm A)) g, typed_arms l -> wf_bytes g -> 10 <= length g ->
  (forall i a P, In (i, a) l -> nth_error kinds i = Some (arm_kind _ a, P) -> P g ->
     try_arms (map snd l) g = (x <- pread (arm_read _ a false) g 0 ;; Ok (arm_block _ a x))) /\
  ((forall i a P, In (i, a) l -> nth_error kinds i = Some (arm_kind _ a, P) -> ~ P g) -> try_arms (map snd l) g = Err BadInput).
Proof. exact @dispatch. Qed.
Print Assumptions C44_dispatch.
(** the order of the arms does not matter *)
Theorem C44_order : forall (cfg : Cfg) A (l l' : list (nat * Arm A)) bs w, Permutation l l' -> typed_arms l -> wf_bytes bs ->
  match_frames bs w (map snd l) = match_frames bs w (map snd l').
Proof. exact @match_frames_permuted. Qed.
Print Assumptions C44_order.
(** what is written as a management frame (C24) is recognised as what it is, with the body where it
    was put *)
Theorem C44_written : forall s h body, (s < 16)%N -> ok_mgmt_header h ->
  is_mgmt s (enc_mgmt s h body) /\ mgmt_body (enc_mgmt s h body) = body.
Proof. exact written_recognised. Qed.
Print Assumptions C44_written.
(** [with_fcs: false] means [with_fcs: true] *)
Theorem C44_with_fcs_refuted : forall (cfg : Cfg),
  (forall A bs b (arms : list (Arm A)), match_frames bs (Some b) arms = match_frames bs (Some true) arms) /\
  exists r e, match_frames disassoc None [disassoc_arm] = Ok r /\ match_frames disassoc (Some false) [disassoc_arm] = Err e.
Proof. exact (fun cfg => conj (@with_fcs_ignored cfg) (@with_fcs_false cfg)). Qed.
Print Assumptions C44_with_fcs_refuted.
(** [is_eapol_key_frame] looks for the EtherType of EAPOL, not for key frames *)
Theorem C44_eapol_partial : forall (cfg : Cfg) g, wf_bytes g -> 10 <= length g ->
  exists b, gf_is_eapol_key_frame g = Ok b /\ (b = true <-> is_eapol g).
Proof. exact @eapol_exact. Qed.
Print Assumptions C44_eapol_partial.
Theorem C44_eapol_refuted : forall (cfg : Cfg), gf_is_eapol_key_frame eapol_start = Ok true /\ nth 33 eapol_start 0%N = 1%N (* EAPOL-Start *).
Proof. exact @eapol_start_taken. Qed.
Print Assumptions C44_eapol_refuted.
Example C44_ex (cfg : Cfg) : wf_bytesb disassoc = true /\ length disassoc = 29 /\ is_mgmt 10 disassoc /\
  is_action [15; 1]%N ([0xd0; 0] ++ repeat 7 22 ++ [15; 1; 0])%N /\
  typed_arms [(7, disassoc_arm); (12, mkArm _ _ data_kind rd_data (fun _ => reason_from_bits 1))].
Proof.
  split; [reflexivity|]. split; [reflexivity|]. split; [split; reflexivity|]. split.
  - split; [split; reflexivity|]. split; [discriminate|]. exists [0]%N. reflexivity.
  - split; [cbn; repeat constructor; cbn; intuition discriminate|]. repeat constructor; eexists; reflexivity.
Qed.

(** ** C28: control frames *)
(** (The frame control field in front is written and read by the user, see the last theorem.) *)
Theorem C28_round_trip : forall (cfg : Cfg) c, ok_ctrl c ->
  Writes (wr_ctrl c) (enc_ctrl c) /\ (enc_ctrl c <> [] -> WritesT (wr_ctrl c) (enc_ctrl c)) /\
  rd_ctrl (ctrl_subtype c) (ctrl_flags c) (enc_ctrl c) = Ok (c, length (enc_ctrl c)).
Proof. exact @ctrl_round_trip. Qed.
Print Assumptions C28_round_trip.
(** the announced length is the written length except for acknowledgements: 14 instead of 8 *)
Theorem C28_length_partial : forall c, ok_ctrl c ->
  length (enc_ctrl c) = match c with C_Ack _ _ _ => 8 | _ => ctrl_length c end.
Proof. exact ctrl_lengths. Qed.
Print Assumptions C28_length_partial.
Theorem C28_length_refuted : exists c, ok_ctrl c /\ ctrl_length c <> length (enc_ctrl c).
Proof. exact ack_length. Qed.
Print Assumptions C28_length_refuted.
(** reading any bytes *)
Theorem C28_received : forall (cfg : Cfg) s f bs, wf_bytes bs ->
  match rd_ctrl s f bs with
  | Ok (c, n) => ctrl_subtype c = s /\ ctrl_flags c = f /\ (exists rest, bs = enc_ctrl c ++ rest) /\ n = length (enc_ctrl c) /\
      (canonical_frame_type (FT_Control s) -> u8 f -> ok_ctrl c)
  | Err _ => length bs < match s with Ct_RTS => 14 | Ct_CTS | Ct_Ack => 8 | _ => 0 end
  | Panic => False
  end.
Proof. exact @ctrl_received. Qed.
Print Assumptions C28_received.
Theorem C28_addresses : forall (cfg : Cfg) c, ok_ctrl c ->
  (8 <= length (enc_ctrl c) -> field_at 6 2 (enc_ctrl c) = Some (ctrl_receiver_address c)) /\
  (length (enc_ctrl c) < 8 -> ctrl_receiver_address c = repeat 0%N 6) /\
  (ctrl_transmitter_address c <> None -> ctrl_transmitter_address c = field_at 6 8 (enc_ctrl c)) /\
  (ctrl_transmitter_address c <> None <-> ctrl_subtype c = Ct_RTS).
Proof. exact @ctrl_addresses. Qed.
Print Assumptions C28_addresses.
Theorem C28_frame_control : forall (cfg : Cfg) c, ok_ctrl c -> exists x, @ctrl_fcf _ serr c = Ok x /\ (x < 65536)%N /\
  le_bytes 2 x = enc_fcf 1 (ctrl_subtype_into_bits (ctrl_subtype c)) (ctrl_flags c) /\
  fcf_frame_type x = FT_Control (ctrl_subtype c) /\ fcf_flags x = ctrl_flags c.
Proof. exact @ctrl_fcf_spec. Qed.
Print Assumptions C28_frame_control.
Example C28_ex : ok_ctrl (C_RTS 0 5 (repeat 1 6) (repeat 2 6))%N /\ ok_ctrl (C_Unknown Ct_BlockAck 0 [1; 2; 3])%N.
Proof. split; repeat (split; [reflexivity|]); try (split; [split; [reflexivity|now apply BaseFacts.wf_bytesb_spec]|split; [reflexivity|now apply BaseFacts.wf_bytesb_spec]]).
  cbn. split; [split; reflexivity|]. do 3 (split; [discriminate|]). now apply BaseFacts.wf_bytesb_spec. Qed.
