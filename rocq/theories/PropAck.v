(** C98: acknowledged messages are delivered exactly once and in order. The specification is SpecAck.v. *)
From Verif Require Import Base SpecBase Control Mgmt SpecMgmt Data SpecData Generic SpecGeneric SpecNoise SpecRetry SpecReserve SpecAck AckFacts AckFacts2.

(** For any messages, however many attempts it takes, and whatever of the frames and of the acknowledgements is lost or damaged: both stations go on without a panic, the
    receiver acknowledges exactly the frames of the sender that arrive undamaged, and what it has delivered are the acknowledged messages, each once and in order, and
    at most the next one, whose acknowledgement has not arrived. *)
Theorem C98_once : forall (cfg : Cfg) l from to messages number air answers acks, typed_arms l -> In (data_arm from to) l -> address from ->
  bad_channel l from to (mkTx messages number false) air answers acks ->
  exists tx rx, attempts (map snd l) from (mkTx messages number false) (mkRx None []) air = Ok (tx, rx, answers) /\ tx_todo tx = skipn acks messages /\ acks <= length messages /\
    (rx_delivered rx = firstn acks messages \/ rx_delivered rx = firstn (S acks) messages).
Proof. exact @once_in_order. Qed.
Print Assumptions C98_once.
(** When the sender has nothing left to do, the receiver has delivered all messages, each once and in order. *)
Theorem C98_all : forall (cfg : Cfg) l from to messages number air answers acks tx rx, typed_arms l -> In (data_arm from to) l -> address from ->
  bad_channel l from to (mkTx messages number false) air answers acks ->
  attempts (map snd l) from (mkTx messages number false) (mkRx None []) air = Ok (tx, rx, answers) -> tx_todo tx = [] -> rx_delivered rx = messages.
Proof. exact @all_delivered_once. Qed.
Print Assumptions C98_all.
(** As long as there is something to do, the sender can make another attempt, and the receiver can answer it. *)
Theorem C98_can : forall (cfg : Cfg) from to tx, tx_todo tx <> [] -> Forall wf_bytes (tx_todo tx) -> address from -> address to ->
  (exists f, transmission from to tx f) /\ exists a, answer_frame (C_Ack 0 0 from) a.
Proof. exact @can_go_on. Qed.
Print Assumptions C98_can.
(** Two messages, of which the second gets the number 0 again; an acknowledgement is lost, a frame is damaged. *)
Example C98_ex : forall (cfg : Cfg), typed_arms [data_arm ack_a ack_b] /\ In (data_arm ack_a ack_b) [data_arm ack_a ack_b] /\ address ack_a /\
  bad_channel [data_arm ack_a ack_b] ack_a ack_b (mkTx two_messages 4095 false) four_attempts four_answers 2.
Proof. intros cfg. split; [exact ack_typed|]. split; [now left|]. split; [apply ack_addresses|exact four_channel]. Qed.
Example C98_run_ex : forall (cfg : Cfg),
  match attempts (map snd [data_arm ack_a ack_b]) ack_a (mkTx two_messages 4095 false) (mkRx None []) four_attempts with
  | Ok (tx, rx, answers) => tx = mkTx [] 4097 false /\ rx_delivered rx = [[1; 2; 3]; [4; 5]]%N /\ answers = four_answers
  | _ => False
  end.
Proof. intros cfg. destruct cfg as [[] [] []]; vm_compute; auto. Qed.
