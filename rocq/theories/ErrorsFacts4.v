(** Witnesses for C75. *)
From Verif Require Import Base BaseFacts SpecBase Bits Layouts Enums Common Crc Elements ElementsFacts ElementTypes Suites Rsn Mgmt Data Eapol Generic
  SpecElements Stores SpecGeneric TornFacts2 TornFacts3 SpecErrors ErrorsFacts ErrorsFacts2 ErrorsFacts3.

Section Facts.
Context {cfg : Cfg}.
Lemma key_final akm bs : wf_bytes bs -> (rd_key_frame akm bs = Err BadInput -> Final (rd_key_frame akm) bs) /\
  (forall e, 4 <= length bs -> 4 + announced bs <= length bs -> rd_key_frame akm bs = Err e -> Final (rd_key_frame akm) bs).
Proof. intros W. split; [exact (bad_final _ bs (key_bad akm))|]. intros e. apply key_complete. exact W. Qed.
Lemma key_short : exists akm bs e, wf_bytes bs /\ rd_key_frame akm bs = Err e /\ e <> BadInput /\ Final (rd_key_frame akm) bs.
Proof.
  exists Ak_Psk, [2; 3; 0; 2; 2; 0]%N, TooBig. assert (W : wf_bytes [2; 3; 0; 2; 2; 0]%N) by now apply wf_bytesb_spec.
  assert (E : rd_key_frame Ak_Psk [2; 3; 0; 2; 2; 0]%N = Err TooBig) by (destruct cfg as [[] [] []]; vm_compute; reflexivity).
  split; [exact W|]. split; [exact E|]. split; [discriminate|]. apply (proj2 (key_final Ak_Psk _ W) TooBig); [cbn; lia|vm_compute; lia|exact E].
Qed.
Lemma generic_short : exists bs more, wf_bytes (bs ++ more) /\ gf_new bs false = Err BadInput /\ gf_new (bs ++ more) false = Ok (bs ++ more).
Proof. exists [0x80]%N, (repeat 0%N 9). split; [now apply wf_bytesb_spec|]. split; reflexivity. Qed.
Lemma ssid_too_long : exists bs, wf_bytes bs /\ et_read SSIDElement bs = Err TooBig /\ Final (et_read SSIDElement) bs.
Proof.
  exists (repeat 65%N 33). split; [now apply wf_bytesb_spec|]. split; [reflexivity|]. intros more x _. cbn [et_read SSIDElement]. unfold rd_ssid.
  rewrite app_length, repeat_length, (proj2 (Nat.ltb_lt _ _)) by lia. discriminate.
Qed.
End Facts.
Lemma chain_errors (cfg : Cfg) :
  let big := mkRaw 221 (repeat 7%N 256) in let c := ChainLink (RawItem (mkRaw 0 [65; 66]%N)) (ChainEnd (RawItem big)) in
  let w := wr_chain c in
  Runs w (p_chain (fun _ => Crash) c) /\ w (repeat 0%N 300) = Err BadInput /\ w [0; 0; 0]%N = Err TooBig /\ Unwritable w /\
  Writes (wr_chain (ChainEnd (RawItem (mkRaw 0 [65]%N)))) [0; 1; 65]%N /\ wr_chain (ChainEnd (RawItem (mkRaw 0 [65]%N))) [9; 9; 9]%N = Ok ([0; 1; 65]%N, 3).
Proof.
  cbv zeta. set (c := ChainLink _ _). assert (R : Runs (wr_chain c) (p_chain (fun _ => Crash) c)) by (apply runs_chain; intros e []).
  assert (E : wr_chain c (repeat 0%N 300) = Err BadInput) by (destruct cfg as [[] [] []]; vm_compute; reflexivity).
  split; [exact R|]. split; [exact E|]. split; [destruct cfg as [[] [] []]; vm_compute; reflexivity|]. split; [exact (bad_unwritable _ _ _ R E)|].
  split; [|destruct cfg as [[] [] []]; vm_compute; reflexivity].
  apply (wr_chain_W _ [mkRaw 0 [65]%N]). constructor; [reflexivity|constructor].
  all: repeat constructor; cbn; lia.
Qed.
