(** What the frame types answer about action bodies. *)
From Verif Require Import Base BaseFacts SpecBase Enums Common Crc SpecCommon SpecElementTypes Mgmt SpecMgmt MgmtFacts3 Data SpecData Control Generic SpecGeneric.

Section Facts.
Context {cfg : Cfg}.
Lemma action_kind {W R} (t : BodyType W R) prefix g b0 rest : ActionMatch t prefix -> is_mgmt 13 g -> mgmt_body g = b0 :: rest ->
  exists b, fk_action_matches (mgmt_kind t) (mkRA (category_from_bits b0) rest) = Ok b /\ (b = true <-> is_action prefix g).
Proof.
  intros [_ M] I B. destruct (M b0 rest) as (b & _ & E & T & _). exists b. split; [exact E|]. rewrite T. unfold is_action. rewrite B.
  split; [intros (more & Q)|intros (_ & _ & more & Q)]; [|eauto]. split; [exact I|]. split; [discriminate|eauto].
Qed.
Lemma action_answers k P g b0 rest : In (k, P) (raw_kind :: kinds) -> is_mgmt 13 g -> mgmt_body g = b0 :: rest ->
  exists b, fk_action_matches k (mkRA (category_from_bits b0) rest) = Ok b /\ (b = true <-> P g).
Proof.
  intros K I B. pose proof I as [T S].
  cbn [In raw_kind kinds] in K.
  repeat match type of K with
  | _ \/ _ => destruct K as [K|K]
  | False => destruct K
  end; injection K as <- <-;
  try (first [eapply action_kind; [exact raw_action_match|exact I|exact B]|eapply action_kind; [exact vendor_match|exact I|exact B]
             |eapply action_kind; [exact open_match|exact I|exact B]|eapply action_kind; [exact confirm_match|exact I|exact B]
             |eapply action_kind; [exact close_match|exact I|exact B]]);
  (exists false; split; [reflexivity|]; unfold is_mgmt, is_type; rewrite T, ?S; split; [discriminate|]; intros H; match type of H with _ /\ _ => destruct H as [_ H] | _ => idtac end; discriminate H).
Qed.
End Facts.
