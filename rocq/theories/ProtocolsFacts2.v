(** Two protocols and the frames of a third one. *)
From Verif Require Import Base SpecBase BaseFacts Crc CrcFacts SpecFcs FcsFacts Enums EnumsFacts Common CommonFacts Elements SpecElements ElementsFacts ElementTypes SpecElementTypes ElementTypesFacts
  Mgmt SpecMgmt MgmtFacts MgmtFacts2 MgmtFacts3 Data SpecData Generic SpecGeneric SpecDelivery SpecNoise NoiseFacts RatesFacts2 ScanFacts2 SpecProtocols ProtocolsFacts.

Section E.
Context {cfg : Cfg}.
(** a thermometer, whose messages are numbers in two bytes, and a chat, whose messages are byte strings; results are the number of the arm and a list *)
Definition thermometer : Protocol (nat * bytes) := mkProtocol [0x00; 0x17; 0xf2]%N (fun t : N => c_bytes (be_bytes 2 t)) (rd_be 2) (fun x => (1, [snd x])).
Definition chat : Protocol (nat * bytes) := mkProtocol [0x18; 0xfe; 0x34]%N (fun s : bytes => c_bytes s) (fun from => Ok (from, length from)) (fun x => (2, snd x)).
Definition own_ps : list (Protocol (nat * bytes)) := [thermometer; chat].
Definition rest_arms : list (nat * Arm (nat * bytes)) :=
  [(8, mkArm _ _ (mgmt_kind RawVendorSpecificAction) (rd_mgmt RawVendorSpecificAction) (fun x => (3, va_oui (snd x) ++ va_payload (snd x))))].
Definition ex_enc (oui payload : bytes) : bytes := enc_frame true (enc_mgmt 13 (ex_header (repeat 2%N 6)) ((127%N :: oui) ++ payload)).
End E.
Definition warm : bytes := Eval vm_compute in ex_enc [0x00; 0x17; 0xf2]%N [1; 44]%N.
Definition hello : bytes := Eval vm_compute in ex_enc [0x18; 0xfe; 0x34]%N [104; 101; 108; 108; 111]%N.
Definition stranger : bytes := Eval vm_compute in ex_enc [0x50; 0x6f; 0x9a]%N [9; 8]%N.
(** one byte changed *)
Definition warm_noise : bytes := Eval vm_compute in firstn 29 warm ++ [45]%N ++ skipn 30 warm.
Section E.
Context {cfg : Cfg}.
Lemma ex_different : different own_ps.
Proof.
  split.
  - repeat constructor; now apply wf_bytesb_spec.
  - repeat constructor; cbn; intuition discriminate.
Qed.
Lemma ex_typed : typed_arms rest_arms.
Proof.
  split; [repeat constructor; cbn; tauto|]. constructor; [|constructor]. eexists. reflexivity.
Qed.
Lemma room n : length (repeat 0%N (n + slack)) = n + slack.
Proof. apply repeat_length. Qed.
Lemma ex_said p m es x k f : In p own_ps -> wf_bytes es -> pr_payload p m = c_bytes es -> end_ok es -> pr_read p es = Ok (x, k) -> f = ex_enc (pr_oui p) es ->
  said own_ps f (pr_block p (ex_header (repeat 2%N 6), x)).
Proof.
  intros I We P EO R ->. set (h := ex_header (repeat 2%N 6)).
  assert (Hh : ok_mgmt_header h) by (apply header_ok; split; [reflexivity|now apply wf_bytesb_spec]).
  assert (D : length (pr_oui p) = 3 /\ wf_bytes (pr_oui p)) by (destruct ex_different as [F _]; rewrite Forall_forall in F; now apply F).
  assert (Wr : Writes (c_write (pr_payload p m)) es) by (rewrite P; apply wr_bytes_W).
  destruct (own_frame p h m es x k true (proj1 D) (proj2 D) Hh We Wr EO R) as (Ws & _).
  set (g := enc_mgmt 13 h ((127%N :: pr_oui p) ++ es)) in *.
  set (buf := repeat 0%N (length (enc_frame true g) + slack)).
  assert (Room : length (enc_frame true g) + slack <= length buf) by (unfold buf; now rewrite repeat_length).
  destruct (DeliveryFacts.written_at _ _ _ Ws Room) as (buf' & n & E & F).
  unfold ex_enc. fold h. fold g. rewrite <- F. exact (said_by own_ps p h m es x k buf buf' n I Hh We Wr EO R Room E).
Qed.
Lemma ex_sent : sent rest_arms stranger (3, [0x50; 0x6f; 0x9a; 9; 8]%N).
Proof.
  set (h := ex_header (repeat 2%N 6)). set (es := [9; 8]%N). set (w := mkVendor [0x50; 0x6f; 0x9a]%N (c_bytes es)).
  assert (Hh : ok_mgmt_header h) by (apply header_ok; split; [reflexivity|now apply wf_bytesb_spec]).
  assert (We : wf_bytes es) by now apply wf_bytesb_spec.
  assert (Hw : ok_vendor w) by (split; [reflexivity|now apply wf_bytesb_spec]).
  assert (Wr : Writes (c_write (va_payload w)) es) by apply wr_bytes_W.
  destruct (vendor_rt h w es true Hh Hw We Wr) as (Ws & _).
  set (g := enc_mgmt 13 h (fixed_vendor w ++ es)) in *.
  set (buf := repeat 0%N (length (enc_frame true g) + slack)).
  assert (Room : length (enc_frame true g) + slack <= length buf) by (unfold buf; now rewrite repeat_length).
  destruct (DeliveryFacts.written_at _ _ _ Ws Room) as (buf' & n & E & F).
  replace stranger with (firstn n buf') by (rewrite F; vm_compute; reflexivity).
  exact (sent_mgmt rest_arms _ _ RawVendorSpecificAction 8 _ _ _ _ _ _ (fun x => (3, va_oui (snd x) ++ va_payload (snd x))) h w es buf buf' n vendor_action_type
    (or_introl eq_refl) Hh Hw We Wr (or_introl Logic.I) Room E).
Qed.
Lemma ex_damaged : damaged warm warm_noise.
Proof.
  split; [now apply wf_bytesb_spec|]. split; [now apply wf_bytesb_spec|]. split; [reflexivity|]. split; [discriminate|]. left. exists 232.
  intros i Hi. refine (differsb_spec (seq 232 32) warm warm_noise _ _ i _); [vm_compute; reflexivity|vm_compute; reflexivity|]. rewrite in_seq. lia.
Qed.
Lemma ex_shared : shared own_ps rest_arms [stranger; hello; warm_noise; warm; hello] [(3, [0x50; 0x6f; 0x9a; 9; 8]%N); (2, [104; 101; 108; 108; 111]%N); (1, [300]%N); (2, [104; 101; 108; 108; 111]%N)].
Proof.
  assert (H : said own_ps hello (2, [104; 101; 108; 108; 111]%N)).
  { apply (ex_said chat [104; 101; 108; 108; 111]%N [104; 101; 108; 108; 111]%N [104; 101; 108; 108; 111]%N 5);
      [right; left; reflexivity|now apply wf_bytesb_spec|reflexivity|right; discriminate|reflexivity|vm_compute; reflexivity]. }
  assert (T : said own_ps warm (1, [300]%N)).
  { apply (ex_said thermometer 300%N [1; 44]%N 300%N 2);
      [left; reflexivity|now apply wf_bytesb_spec|reflexivity|right; discriminate|reflexivity|vm_compute; reflexivity]. }
  apply shared_other; [exact ex_sent| |].
  { intros p [<-|[<-|[]]] (_ & _ & more & E); vm_compute in E; discriminate. }
  apply shared_own; [exact H|]. eapply shared_own_damaged; [exact T|exact ex_damaged|]. apply shared_own; [exact T|]. apply shared_own; [exact H|]. constructor.
Qed.
Lemma ex_station : station (map own_arm own_ps ++ map snd rest_arms) [stranger; hello; warm_noise; warm; hello] = Ok [(3, [0x50; 0x6f; 0x9a; 9; 8]%N); (2, [104; 101; 108; 108; 111]%N); (1, [300]%N); (2, [104; 101; 108; 108; 111]%N)] /\
  station (map snd rest_arms ++ map own_arm own_ps) [warm] = Ok [(3, [0x00; 0x17; 0xf2; 1; 44]%N)].
Proof. destruct cfg as [[] [] []]; split; vm_compute; reflexivity. Qed.
End E.
