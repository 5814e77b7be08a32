(** Several users' own vendor specific action frames in one receiver. *)
From Verif Require Import Base SpecBase Crc Enums Common Elements SpecElementTypes Mgmt SpecMgmt Generic SpecGeneric SpecDelivery SpecNoise.

(** A protocol that somebody defines outside of the library, as body/action/mod.rs:7-11 invites: its OUI, how a message is written as payload, how a
    payload is read, and the block of its arm. Nothing is assumed about the writer and the reader. *)
Record Protocol (A : Type) := mkProtocol {
  pr_out : Type; pr_in : Type;
  pr_oui : bytes;
  pr_payload : pr_out -> Container;
  pr_read : reader pr_in;
  pr_block : MgmtHeader * pr_in -> A }.
Arguments mkProtocol {A pr_out pr_in}. Arguments pr_out {A}. Arguments pr_in {A}. Arguments pr_oui {A}. Arguments pr_payload {A}. Arguments pr_read {A}.
Arguments pr_block {A}.

Section Spec.
Context {cfg : Cfg}.
(** Its body type (body/mod.rs:76-81 for any [ActionBody]): it matches by [is_vendor_and_matches], writes the header with
    [append_vendor_action_header], and reads with [strip_and_check_vendor_action_header]. *)
Definition own_body {A} (p : Protocol A) : BodyType (pr_out p) (pr_in p) :=
  mkBT Mg_Action
    (fun a => is_vendor_and_matches a (pr_oui p))
    (fun m => VENDOR_SPECIFIC_ACTION_HEADER_LENGTH + c_measure (pr_payload p m))
    (fun m buf =>
       '(buf, off) <- append_vendor_action_header (pr_oui p) buf 0 ;;
       gwrite (c_write (pr_payload p m)) buf off)
    (fun from =>
       off <- strip_and_check_vendor_action_header (pr_oui p) from 0 ;;
       gread (pr_read p) from off).
Definition own_arm {A} (p : Protocol A) : Arm A := mkArm _ _ (mgmt_kind (own_body p)) (rd_mgmt (own_body p)) (pr_block p).
(** the protocols have different OUIs *)
Definition different {A} (ps : list (Protocol A)) : Prop := Forall (fun p => length (pr_oui p) = 3 /\ wf_bytes (pr_oui p)) ps /\ NoDup (map pr_oui ps).
(** [g] is an action frame of the vendor of [p]: its body starts with 127 and the OUI *)
Definition belongs {A} (p : Protocol A) (g : bytes) : Prop := is_action (127%N :: pr_oui p) g.

(** [said ps f a]: [f] is a message of one of the protocols, written with frame check sequence into a large enough buffer; [a] is what the block of this
    protocol makes of the header and of what the protocol's reader makes of the payload *)
Inductive said {A} (ps : list (Protocol A)) : bytes -> A -> Prop :=
| said_by : forall p h m es x k buf buf' n, In p ps -> ok_mgmt_header h ->
    wf_bytes es -> Writes (c_write (pr_payload p m)) es -> end_ok es -> pr_read p es = Ok (x, k) ->
    length (enc_frame true (enc_mgmt 13 h ((127%N :: pr_oui p) ++ es))) + slack <= length buf ->
    wr_mgmt (own_body p) h m true buf = Ok (buf', n) -> said ps (firstn n buf') (pr_block p (h, x)).
(** what is on the air besides: frames of the types of the library ([sent]), but not vendor specific ones with the OUI of one of the protocols *)
Definition foreign {A} (ps : list (Protocol A)) (f : bytes) : Prop := forall p, In p ps -> ~ belongs p (firstn (length f - 4) f).

(** [shared ps l air due]: [air] is what arrives, in any order and as often as anybody likes, of messages of the protocols and of other frames, damaged or
    not; [due] are the results of the blocks for the undamaged ones. *)
Inductive shared {A} (ps : list (Protocol A)) (l : list (nat * Arm A)) : list bytes -> list A -> Prop :=
| shared_silent : shared ps l [] []
| shared_own : forall f a air due, said ps f a -> shared ps l air due -> shared ps l (f :: air) (a :: due)
| shared_own_damaged : forall f a b air due, said ps f a -> damaged f b -> shared ps l air due -> shared ps l (b :: air) due
| shared_other : forall f a air due, sent l f a -> foreign ps f -> shared ps l air due -> shared ps l (f :: air) (a :: due)
| shared_other_damaged : forall f a b air due, sent l f a -> damaged f b -> shared ps l air due -> shared ps l (b :: air) due.
End Spec.
