(** C75: what the kind of an error tells. The specification is SpecErrors.v. *)
From Verif Require Import Base BaseFacts SpecBase Bits Layouts Enums Common Crc Elements ElementTypes Suites Rsn Mgmt Amsdu CryptoHeader Data Control Eapol Generic
  Stores SpecMgmt SpecGeneric SpecData TornFacts2 TornFacts3 TornFacts4 SpecErrors ErrorsFacts ErrorsFacts2 ErrorsFacts3 ErrorsFacts4 KeyCureFacts.

(** ** Reading *)
(** [Telling r fits]: if [r] refuses a byte string with [BadInput], nothing that starts with it is accepted; with another error, something that
    starts with it is accepted, unless a first byte of another frame type is there already. Without FCS: the checksum is in the last bytes,
    whichever these are. *)
Theorem C75_mgmt : forall (cfg : Cfg), Telling (rd_mgmt Beacon false) (type_fits 0) /\ Telling (rd_mgmt ProbeResponse false) (type_fits 0) /\
  Telling (rd_mgmt Authentication false) (type_fits 0) /\ Telling (rd_mgmt AssociationRequest false) (type_fits 0) /\
  Telling (rd_mgmt AssociationResponse false) (type_fits 0) /\ Telling (rd_mgmt Deauthentication false) (type_fits 0) /\
  Telling (rd_mgmt Disassociation false) (type_fits 0) /\ Telling (rd_mgmt ProbeRequest false) (type_fits 0).
Proof. exact @telling_elements. Qed.
Print Assumptions C75_mgmt.
Theorem C75_action : forall (cfg : Cfg), Telling (rd_mgmt RawAction false) (type_fits 0) /\
  Telling (rd_mgmt RawVendorSpecificAction false) (type_fits 0) /\ Telling (rd_mgmt MeshPeeringOpen false) (type_fits 0) /\
  Telling (rd_mgmt MeshPeeringConfirm false) (type_fits 0) /\ Telling (rd_mgmt MeshPeeringClose false) (type_fits 0).
Proof. exact @telling_actions. Qed.
Print Assumptions C75_action.
Theorem C75_data : forall (cfg : Cfg), Telling (rd_data false) (type_fits 2).
Proof. exact @telling_data. Qed.
Print Assumptions C75_data.
Theorem C75_crypto : forall (cfg : Cfg), Telling rd_crypto_header ext_iv_fits.
Proof. exact @telling_crypto. Qed.
Print Assumptions C75_crypto.
(** Control frames and A-MSDU subframes are refused for want of bytes only. *)
Theorem C75_ctrl : forall (cfg : Cfg) s f bs e, wf_bytes bs -> rd_ctrl s f bs = Err e -> e <> BadInput /\ Curable (rd_ctrl s f) bs.
Proof. exact @telling_ctrl. Qed.
Print Assumptions C75_ctrl.
Theorem C75_subframe : forall (cfg : Cfg) bs e, wf_bytes bs -> rd_subframe bs = Err e -> e <> BadInput /\ Curable rd_subframe bs.
Proof. exact @telling_subframe. Qed.
Print Assumptions C75_subframe.
(** Key frames: [BadInput] is final. Once as many bytes are there as the frame announces, every error is, also the one that says that bytes
    are missing. *)
Theorem C75_key_partial : forall (cfg : Cfg) akm bs, wf_bytes bs ->
  (rd_key_frame akm bs = Err BadInput -> Final (rd_key_frame akm) bs) /\
  (forall e, 4 <= length bs -> 4 + announced bs <= length bs -> rd_key_frame akm bs = Err e -> Final (rd_key_frame akm) bs).
Proof. exact @key_final. Qed.
Print Assumptions C75_key_partial.
Theorem C75_key_refuted : forall (cfg : Cfg), exists akm bs e, wf_bytes bs /\ rd_key_frame akm bs = Err e /\ e <> BadInput /\ Final (rd_key_frame akm) bs.
Proof. exact @key_short. Qed.
Print Assumptions C75_key_refuted.
(** Exactly which key frames cut short can be completed: those whose type, descriptor type and lengths, as far as they are there, are
    possible. *)
Theorem C75_key_exact : forall (cfg : Cfg) akm bs, wf_bytes bs ->
  (Curable (rd_key_frame akm) bs <-> exists m, key_mic_len akm = Some m /\ key_frame_possible strict_end m bs).
Proof. exact @key_curable. Qed.
Print Assumptions C75_key_exact.
(** the first five bytes of a packet with a body of 120 bytes; the same with one of 90 bytes, too short for a MIC of 16 bytes *)
Example C75_key_ex (cfg : Cfg) : key_frame_possible strict_end 16 [2; 3; 0; 120; 2]%N /\ ~ key_frame_possible strict_end 16 [2; 3; 0; 90; 2]%N.
Proof.
  split.
  - exists 120%N, 4%N. split; [reflexivity|]. split; [reflexivity|].
    split; [intros [|i] Hi; [reflexivity|cbn in Hi; lia]|]. split; [intros [|[|i]] Hi; [reflexivity|reflexivity|cbn in Hi; lia]|].
    split; [intros [|i] Hi; [reflexivity|cbn in Hi; lia]|]. split; [intros i _ L; cbn in L; lia|]. split; [cbn; lia|]. intros _; left; discriminate.
  - intros (len & dl & B & _ & _ & L & _ & _ & F & _). pose proof (L 0 ltac:(cbn; lia) ltac:(cbn; lia)) as L0. pose proof (L 1 ltac:(cbn; lia) ltac:(cbn; lia)) as L1.
    assert (E : be_bytes 2 len = [0; 90]%N).
    { destruct (be_bytes 2 len) as [|x [|y [|z r]]] eqn:E; try (apply (f_equal (@length N)) in E; rewrite be_bytes_length in E; discriminate).
      cbn in L0, L1. now rewrite <- L0, <- L1. }
    apply (f_equal be_val) in E. rewrite be_val_bytes_small in E by exact B. cbn in E. subst len. cbn in F. lia.
Qed.
(** [GenericFrame::new] and so [match_frames!] say [BadInput] for a byte string that is too short. *)
Theorem C75_generic_refuted : forall (cfg : Cfg), exists bs more, wf_bytes (bs ++ more) /\ gf_new bs false = Err BadInput /\
  gf_new (bs ++ more) false = Ok (bs ++ more).
Proof. exact @generic_short. Qed.
Print Assumptions C75_generic_refuted.
(** An SSID, rates: [TooBig] for too many bytes. *)
Theorem C75_ssid_refuted : forall (cfg : Cfg), exists bs, wf_bytes bs /\ et_read SSIDElement bs = Err TooBig /\ Final (et_read SSIDElement) bs.
Proof. exact @ssid_too_long. Qed.
Print Assumptions C75_ssid_refuted.
Example C75_ex (cfg : Cfg) :
  (** a beacon cut in its header; a data frame read as beacon; a mesh peering confirm with the association ID 0 *)
  rd_mgmt Beacon false [0x80; 0; 0; 0; 0]%N = Err TooBig /\ rd_mgmt Beacon false [8; 0; 0]%N = Err BadInput /\
  type_fits 0 [0x80; 0; 0; 0; 0]%N /\ ~ type_fits 0 [8]%N /\ rd_mgmt Beacon false [8]%N = Err TooBig /\
  rd_mgmt MeshPeeringConfirm false (0xd0%N :: repeat 0%N 23 ++ [15; 2; 0; 0; 0; 0; 0])%N = Err BadInput /\
  (exists x, rd_mgmt MeshPeeringConfirm false (0xd0%N :: repeat 0%N 23 ++ [15; 2; 0; 0; 1; 0; 0])%N = Ok x) /\
  rd_crypto_header [0; 0; 0; 0; 0; 0; 0; 0]%N = Err BadInput /\ rd_crypto_header [0; 0; 0; 0]%N = Err TooBig /\ ~ ext_iv_fits [0; 0; 0; 0]%N.
Proof.
  split; [destruct cfg as [[] [] []]; vm_compute; reflexivity|]. split; [destruct cfg as [[] [] []]; vm_compute; reflexivity|].
  split; [right; reflexivity|]. split; [intros [X|X]; discriminate|]. split; [destruct cfg as [[] [] []]; vm_compute; reflexivity|].
  split; [destruct cfg as [[] [] []]; vm_compute; reflexivity|]. split; [destruct cfg as [[] [] []]; eexists; vm_compute; reflexivity|].
  split; [destruct cfg as [[] [] []]; vm_compute; reflexivity|]. split; [destruct cfg as [[] [] []]; vm_compute; reflexivity|].
  intros [X|X]; [cbn in X; lia|discriminate].
Qed.

(** ** Writing *)
(** The writers of the library are programs ([Runs], C74_elements to C74_ctrl). If one refuses a buffer with [BadInput], the value cannot be
    written into any buffer; a value that has an encoding is refused with the other errors only, and a larger buffer takes it. *)
Theorem C75_write : forall (cfg : Cfg) w p buf, Runs w p -> w buf = Err BadInput -> Unwritable w.
Proof. exact @bad_unwritable. Qed.
Print Assumptions C75_write.
Theorem C75_write_encoded : forall (cfg : Cfg) w p bs buf e, Runs w p -> Writes w bs -> w buf = Err e ->
  e <> BadInput /\ exists more r, w (buf ++ more) = Ok r.
Proof. exact @encoded_error. Qed.
Print Assumptions C75_write_encoded.
(** What fits into a buffer fits into every larger one, with the same size. *)
Theorem C75_larger : forall (cfg : Cfg) w p a b a' n, Runs w p -> w a = Ok (a', n) -> length a <= length b -> exists b', w b = Ok (b', n).
Proof. exact @larger_buffer. Qed.
Print Assumptions C75_larger.
Example C75_write_ex (cfg : Cfg) :
  let big := mkRaw 221 (repeat 7%N 256) in let c := ChainLink (RawItem (mkRaw 0 [65; 66]%N)) (ChainEnd (RawItem big)) in
  let w := wr_chain c in
  Runs w (p_chain (fun _ => Crash) c) /\ w (repeat 0%N 300) = Err BadInput /\ w [0; 0; 0]%N = Err TooBig /\ Unwritable w /\
  Writes (wr_chain (ChainEnd (RawItem (mkRaw 0 [65]%N)))) [0; 1; 65]%N /\ wr_chain (ChainEnd (RawItem (mkRaw 0 [65]%N))) [9; 9; 9]%N = Ok ([0; 1; 65]%N, 3).
Proof. exact (chain_errors cfg). Qed.
