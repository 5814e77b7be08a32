(** Frames behind a channel that damages some of them. *)
From Verif Require Import Base BaseFacts SpecBase Crc SpecFcs CrcFacts FcsFacts FcsZech Enums Common Elements SpecElements SpecElementTypes Mgmt SpecMgmt
  Data SpecData Generic SpecGeneric SpecPortable SpecDelivery DeliveryFacts SpecNoise.

Section Facts.
Context {cfg : Cfg}.
Lemma damage_seen s r : damaged s r -> (exists body, strip_and_validate_fcs s = Ok body) -> exists e, strip_and_validate_fcs r = Err e.
Proof.
  intros (Ws & Wr & L & D & [[k B]|(flips & F & B)]) S.
  - exact (fcs_burst s r k Ws Wr L B D S).
  - destruct F as [[N2 F]|[[N3 F]|[[N4 F]|[N5 F]]]].
    + exact (two_bits s r flips Ws Wr L B D S N2 F).
    + exact (three_bits s r flips Ws Wr L B D S N3 F).
    + assert (length s <= 375) by lia. now apply (four_bits s r flips).
    + assert (length s <= 37) by lia. now apply (five_bits s r flips).
Qed.
Lemma refused s r : damaged s r -> (exists body, strip_and_validate_fcs s = Ok body) ->
  (exists e, gf_new r true = Err e) /\ (forall W R (t : BodyType W R), exists e, rd_mgmt t true r = Err e) /\ (exists e, rd_data true r = Err e) /\
  (forall A (arms : list (Arm A)), exists e, match_frames r (Some true) arms = Err e).
Proof.
  intros D S. destruct (damage_seen s r D S) as [e E].
  split; [|split; [|split]]; intros; exists e; unfold match_frames, gf_new, rd_mgmt, rd_data; now rewrite E.
Qed.
Lemma type_delivered W R (t : BodyType W R) i subtype ok fixed cont conv empty_ok :
  mgmt_type W R t i subtype ok fixed cont conv empty_ok -> Delivered t i subtype ok fixed cont conv empty_ok.
Proof.
  pose proof all_delivered as (D0 & D1 & D2 & D3 & D4 & D5 & D6 & D7 & D8 & D9 & D10 & D11). intros T. destruct T; assumption.
Qed.
Lemma sent_runs {A} (l : list (nat * Arm A)) f a : typed_arms l -> sent l f a -> match_frames f (Some true) (map snd l) = Ok a.
Proof.
  intros TA S. destruct S as [W R t i subtype ok fixed cont conv empty_ok block h w es buf buf' n T I Hh Hw We Wr EO L E|block h p body buf buf' n I Hh PO L E].
  - destruct (type_delivered _ _ _ _ _ _ _ _ _ _ T A l block h w es true buf TA I Hh Hw We Wr EO L) as (b2 & n2 & E2 & M).
    rewrite E in E2. injection E2 as <- <-. exact M.
  - destruct (data_delivered A l block h p body true buf TA I Hh PO L) as (b2 & n2 & E2 & M).
    rewrite E in E2. injection E2 as <- <-. exact M.
Qed.
Lemma runs_valid {A} (arms : list (Arm A)) f a : match_frames f (Some true) arms = Ok a -> exists body, strip_and_validate_fcs f = Ok body.
Proof.
  unfold match_frames, gf_new. destruct (strip_and_validate_fcs f) as [b|e|]; cbn; try discriminate. eauto.
Qed.
Lemma through_noise A (l : list (nat * Arm A)) air due : typed_arms l -> channel l air due -> station (map snd l) air = Ok due.
Proof.
  intros TA C. induction C as [|f a air due S C IH|f a b air due S D C IH]; cbn [station].
  - reflexivity.
  - rewrite (sent_runs l f a TA S), IH. reflexivity.
  - pose proof (runs_valid _ _ _ (sent_runs l f a TA S)) as V.
    destruct (refused f b D V) as (_ & _ & _ & M). destruct (M A (map snd l)) as [e ->]. exact IH.
Qed.
End Facts.
