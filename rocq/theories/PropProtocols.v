(** C96: protocols that users define in vendor specific action frames share a receiver. The specification is SpecProtocols.v. *)
From Verif Require Import Base SpecBase Enums Common Mgmt SpecMgmt Generic SpecGeneric SpecDelivery SpecNoise SpecProtocols ProtocolsFacts ProtocolsFacts2.

(** A type of one's own matches exactly the action frames with its OUI. *)
Theorem C96_matches : forall (cfg : Cfg) A (p : Protocol A) g, length (pr_oui p) = 3 -> wf_bytes g -> 10 <= length g ->
  exists b, gf_matches (mgmt_kind (own_body p)) g = Ok b /\ (b = true <-> belongs p g).
Proof. exact @own_matches. Qed.
Print Assumptions C96_matches.
(** Every frame whatsoever, with or without frame check sequence: it is given to the protocol it belongs to, in whatever order the protocols' arms are written; if it belongs to none of
    them, the other arms, behind them, do as they would without them. *)
Theorem C96_dispatch : forall (cfg : Cfg) A (ps : list (Protocol A)) arms bs w g, different ps -> wf_bytes bs -> gf_new bs (match w with Some _ => true | None => false end) = Ok g ->
  (forall p, In p ps -> belongs p g -> match_frames bs w (map own_arm ps ++ arms) = (x <- pread (rd_mgmt (own_body p) false) g 0 ;; Ok (pr_block p x))) /\
  ((forall p, In p ps -> ~ belongs p g) -> match_frames bs w (map own_arm ps ++ arms) = match_frames bs w arms).
Proof. exact @own_dispatch_frame. Qed.
Print Assumptions C96_dispatch.
(** What is written as a message of a protocol is the frame of the standard with the protocol's payload, and is read by the protocol's reader from this payload. *)
Theorem C96_message : forall (cfg : Cfg) A (p : Protocol A) h m es x k fcs, length (pr_oui p) = 3 -> wf_bytes (pr_oui p) -> ok_mgmt_header h ->
  wf_bytes es -> Writes (c_write (pr_payload p m)) es -> end_ok es -> pr_read p es = Ok (x, k) ->
  let g := enc_mgmt 13 h ((127%N :: pr_oui p) ++ es) in
  Writes (wr_mgmt (own_body p) h m fcs) (enc_frame fcs g) /\ wf_bytes g /\ 10 <= length g /\ belongs p g /\ pread (rd_mgmt (own_body p) false) g 0 = Ok (h, x).
Proof. exact @own_frame. Qed.
Print Assumptions C96_message.
(** Any number of protocols with different OUIs, and any other types of the library, the general vendor specific one among them: whatever arrives, in any order, repeated and damaged,
    each block is run on exactly the undamaged messages of its protocol or type, with what was written. *)
Theorem C96_shared : forall (cfg : Cfg) A (ps : list (Protocol A)) l air due, different ps -> typed_arms l -> shared ps l air due ->
  station (map own_arm ps ++ map snd l) air = Ok due.
Proof. exact @share. Qed.
Print Assumptions C96_shared.
(** A thermometer, a chat and the frames of a third vendor. If the general type comes first, it takes all vendor specific frames. *)
Example C96_ex : forall (cfg : Cfg), different own_ps /\ typed_arms rest_arms /\
  shared own_ps rest_arms [stranger; hello; warm_noise; warm; hello] [(3, [0x50; 0x6f; 0x9a; 9; 8]%N); (2, [104; 101; 108; 108; 111]%N); (1, [300]%N); (2, [104; 101; 108; 108; 111]%N)].
Proof. exact (fun cfg => conj ex_different (conj ex_typed ex_shared)). Qed.
Example C96_shared_ex : forall (cfg : Cfg),
  station (map own_arm own_ps ++ map snd rest_arms) [stranger; hello; warm_noise; warm; hello] = Ok [(3, [0x50; 0x6f; 0x9a; 9; 8]%N); (2, [104; 101; 108; 108; 111]%N); (1, [300]%N); (2, [104; 101; 108; 108; 111]%N)] /\
  station (map snd rest_arms ++ map own_arm own_ps) [warm] = Ok [(3, [0x00; 0x17; 0xf2; 1; 44]%N)].
Proof. exact @ex_station. Qed.
