(** Properties of received bytes that make a receiver panic (C69). *)
From Verif Require Import Base SpecBase Crc Common Elements SpecElements ElementTypes Rsn Tim Mgmt Data CryptoHeader Amsdu SpecData Generic SpecGeneric Accessors SpecCrash CrashFacts.

(** ** C69 *)
Theorem C69_answer : forall (cfg : Cfg) body q, wf_bytes body -> askable q ->
  (answer body q = Panic <-> exists es, raw_elements body = Ok es /\ deadly q es).
Proof. exact @answer_panics. Qed.
Print Assumptions C69_answer.
Theorem C69_receiver : forall (cfg : Cfg) bs w ask, wf_bytes bs -> (forall i, Forall askable (ask i)) ->
  match match_frames bs w (map snd (receiver ask)) with
  | Ok l => exists i front body behind es, bs = front ++ body ++ behind /\ raw_elements body = Ok es /\
              l = answers (ask i) body /\ (In Panic l <-> exists q, In q (ask i) /\ deadly q es)
  | Err _ => True
  | Panic => w <> None /\ length bs < 4
  end.
Proof. exact @receiver_outcome. Qed.
Print Assumptions C69_receiver.
Theorem C69_short : forall (cfg : Cfg) bs b ask, length bs < 4 -> match_frames bs (Some b) (map snd (receiver ask)) = Panic.
Proof. exact @receiver_short. Qed.
Print Assumptions C69_short.
Theorem C69_safe : forall (cfg : Cfg) bs w ask, wf_bytes bs -> (forall i, Forall askable (ask i)) ->
  (forall i q es, In q (ask i) -> ~ deadly q es) -> (w = None \/ 4 <= length bs) ->
  match match_frames bs w (map snd (receiver ask)) with Ok l => ~ In Panic l | Err _ => True | Panic => False end.
Proof. exact @receiver_safe. Qed.
Print Assumptions C69_safe.
Theorem C69_data : forall (cfg : Cfg) fcs bs h p n mic, wf_bytes bs -> rd_data fcs bs = Ok ((h, p), n) ->
  (use_payload mic (h, p) = Panic <-> exists p', p = Some p' /\ deadly_payload h mic p').
Proof. exact @data_panics. Qed.
Print Assumptions C69_data.

(** A receiver that asks every frame for everything but mesh peering elements meets the hypotheses of [C69_safe]. *)
Definition careful (cfg : Cfg) (i : nat) : list Question :=
  [First _ _ SSIDElement; First _ _ DSSSParameterSetElement; All _ _ VendorSpecificElement; First _ _ MeshConfigurationElement;
   FirstRaw (Id 117); AllRaw (Id 221); Aids; Rates; Suites].
Example careful_askable : forall cfg i, Forall askable (careful cfg i).
Proof. intros cfg i. repeat apply Forall_cons; try apply Forall_nil; cbn; try exact I; try constructor; intuition lia. Qed.
Example careful_safe : forall cfg i q es, In q (careful cfg i) -> ~ deadly q es.
Proof. intros cfg i q es IN. cbn in IN. intuition subst; cbn in *; intuition discriminate. Qed.
Example careful_beacon : forall cfg, match_frames (crash_beacon 25) None (map snd (@receiver cfg (careful cfg))) = Ok (repeat (Ok tt) 9).
Proof. intros cfg. destruct cfg as [[] [] []]; vm_compute; reflexivity. Qed.
(** One that also asks for mesh peering elements panics on such a beacon, and not on one with a shorter element. *)
Theorem C69_receiver_panics : forall (cfg : Cfg), let ask := fun _ => [First _ _ MeshPeeringElement] in
  (forall i, Forall askable (ask i)) /\ wf_bytes (crash_beacon 25) /\
  match_frames (crash_beacon 25) None (map snd (receiver ask)) = Ok [Panic] /\
  match_frames (crash_beacon 24) None (map snd (receiver ask)) = Ok [Ok tt].
Proof. exact @mesh_peering_crash. Qed.
Print Assumptions C69_receiver_panics.
Theorem C69_amsdu_panics : forall (cfg : Cfg), exists h p n, wf_bytes (crash_data false true (crash_amsdu [])) /\
  rd_data false (crash_data false true (crash_amsdu [])) = Ok ((h, Some p), n) /\ use_payload None (h, Some p) = Panic /\
  forall pad, pad = [0]%N -> exists p' n', rd_data false (crash_data false true (crash_amsdu pad)) = Ok ((h, Some p'), n') /\ use_payload None (h, Some p') = Ok tt.
Proof. exact @amsdu_crash. Qed.
Print Assumptions C69_amsdu_panics.
Theorem C69_protected_panics : forall (cfg : Cfg), exists h n, let p := [1; 2; 0; 32; 3; 4; 5; 6; 7]%N in
  rd_data false (crash_data true false p) = Ok ((h, Some p), n) /\ use_payload (Some Mic_Short) (h, Some p) = Panic /\
  use_payload None (h, Some p) = Ok tt /\ use_payload (Some Mic_NotPresent) (h, Some p) = Ok tt.
Proof. exact @protected_crash. Qed.
Print Assumptions C69_protected_panics.
