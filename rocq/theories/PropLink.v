(** C86: a link with protected data frames. *)
From Verif Require Import Base BaseFacts SpecBase SpecElementTypes Mgmt SpecMgmt CryptoHeader Data SpecData SpecKeyMgmt SpecHandshake SpecReplay SpecLink LinkFacts LinkFacts2.

(** ** C86 *)
(** Whatever is heard (any byte strings, in any order, for any length of time), if nobody forges: the receiver takes only messages that were sent, each at
    most once and in the order in which they were sent, with the plaintext and the authenticated data they were sent with. *)
Theorem C86_safe : forall (cfg : Cfg) c aad mic (fcs : bool), native_le = true -> forall sent air last, Forall wf_bytes air -> rising sent ->
  Forall (fun b => ~ is_foreign c aad mic fcs sent b) air -> subsequence (link (open_frame c aad mic fcs) last air) sent.
Proof. exact @link_safe. Qed.
Print Assumptions C86_safe.
(** If every message gets through once (with key ID 0) and nothing incomplete is heard, the receiver takes exactly the messages sent, whatever else is heard. *)
Theorem C86_live_partial : forall (cfg : Cfg) c aad mic (fcs : bool), native_le = true -> forall rounds : Rounds, ok_cipher c mic 0 ->
  Forall (fun r => ok_message (fst r) /\ end_ok (m_plain (fst r)) /\ Forall wf_bytes (snd r) /\ Forall (complete_frame mic fcs) (snd r) /\
    is_heard c aad mic fcs 0 (fst r) (snd r)) rounds ->
  nothing_foreign c aad mic fcs [] rounds -> rising (map (fun r => item aad (fst r)) rounds) ->
  link (open_frame c aad mic fcs) None (concat (map snd rounds)) = map (fun r => item aad (fst r)) rounds.
Proof. exact @link_live. Qed.
Print Assumptions C86_live_partial.
(** An incomplete protected frame makes the receiver panic, and what is sent afterwards is lost. *)
Theorem C86_panic_refuted : forall (cfg : Cfg), native_le = true -> exists (rounds : Rounds) c aad mic, ok_cipher c mic 0 /\
  Forall (fun r => ok_message (fst r) /\ end_ok (m_plain (fst r)) /\ Forall wf_bytes (snd r) /\ is_heard c aad mic false 0 (fst r) (snd r)) rounds /\
  nothing_foreign c aad mic false [] rounds /\ rising (map (fun r => item aad (fst r)) rounds) /\
  link (open_frame c aad mic false) None (concat (map snd rounds)) = [] /\ length rounds = 1.
Proof. exact @link_panics. Qed.
Print Assumptions C86_panic_refuted.
(** No message under another key ID is ever taken by a receiver that has the key of that ID (and none with ID 0). *)
Theorem C86_key_refuted : forall (cfg : Cfg) c aad mic (fcs : bool), native_le = true -> forall key m buf f, ok_cipher c mic key -> ok_message m -> (0 < key < 4)%N ->
  end_ok (m_plain m) -> wf_bytes buf -> message_size mic m + slack <= length buf -> (forall pn a text tag, unseal c 0 pn a text tag = None) ->
  send_message c aad mic fcs key m buf = Ok f -> open_frame c aad mic fcs f = Ok None.
Proof. exact @other_keys. Qed.
Print Assumptions C86_key_refuted.
(** On big endian machines the sequence control is read with its bytes exchanged, and a message with it in the authenticated data does not open. *)
Theorem C86_big_endian_refuted : forall (cfg : Cfg), native_le = false -> exists c aad m buf f, ok_cipher c Mic_Short 0 /\ ok_message m /\ wf_bytes buf /\
  message_size Mic_Short m + slack <= length buf /\ send_message c aad Mic_Short false 0 m buf = Ok f /\ open_frame c aad Mic_Short false f = Ok None.
Proof. exact @link_big_endian. Qed.
Print Assumptions C86_big_endian_refuted.
(** the sender's frames in any large enough buffer *)
Theorem C86_sent : forall (cfg : Cfg) c aad mic (fcs : bool) key m buf, ok_cipher c mic key -> ok_message m -> (key < 4)%N -> wf_bytes buf ->
  message_size mic m + slack <= length buf ->
  (let '(text, tag) := seal c key (m_number m) (aad (set_protected (m_header m))) (m_plain m) in
   send_message c aad mic fcs key m buf = Ok (enc_frame fcs (enc_data (set_protected (m_header m)) (enc_crypto (m_number m) key ++ text ++ tag)))).
Proof. exact @sent_frame. Qed.
Print Assumptions C86_sent.
(** Two messages with replays, an altered frame and an unprotected frame; and a message under key 1. *)
Example C86_ex (cfg : Cfg) : native_le = true ->
  let c := toy Mic_Short 0 in
  let m1 := toy_message 1 [9; 8; 7]%N in let m2 := toy_message 2 [5]%N in
  let f1 := toy_frame Mic_Short true 1 [9; 8; 7]%N in let f2 := toy_frame Mic_Short true 2 [5]%N in
  let altered := enc_frame true (enc_data (toy_header 0x41) (enc_crypto 2 0 ++ [6]%N ++ toy_tag Mic_Short 0 2 (toy_aad (toy_header 0x41)) [5]%N)) in
  let plain := enc_frame true (enc_data (toy_header 1) [1; 2; 3]%N) in
  let rounds := [(m1, [f1; f1]); (m2, [f1; altered; f2; plain; f2])] in
  (ok_cipher c Mic_Short 0 /\
  Forall (fun r => ok_message (fst r) /\ end_ok (m_plain (fst r)) /\ Forall wf_bytes (snd r) /\ Forall (complete_frame Mic_Short true) (snd r) /\
    is_heard c toy_aad Mic_Short true 0 (fst r) (snd r)) rounds /\
  nothing_foreign c toy_aad Mic_Short true [] rounds /\ rising (map (fun r => item toy_aad (fst r)) rounds)) /\
  map snd (link (open_frame c toy_aad Mic_Short true) None (concat (map snd rounds))) = [[9; 8; 7]; [5]]%N /\
  ok_cipher (toy Mic_Short 1) Mic_Short 1 /\ (forall pn a text tag, unseal (toy Mic_Short 1) 0 pn a text tag = None).
Proof.
  intros NL c m1 m2 f1 f2 altered plain rounds.
  assert (O1 : ok_data_header (toy_header 1)) by (apply toy_header_ok; now left).
  assert (O2 : ok_data_header (toy_header 0x41)) by (apply toy_header_ok; now right).
  assert (W : forall b, In b [f1; f2; altered; plain] -> wf_bytes b).
  { intros b [<-|[<-|[<-|[<-|[]]]]]; apply wf_bytesb_spec; vm_compute; reflexivity. }
  assert (C : forall b, In b [f1; f2; altered; plain] -> complete_frame Mic_Short true b).
  { intros b [<-|[<-|[<-|[<-|[]]]]].
    1-3: apply (complete_ok NL); [exact O2|apply wf_bytesb_spec; vm_compute; reflexivity|reflexivity|reflexivity|reflexivity|reflexivity|right; discriminate].
    split; [intros _; vm_compute; lia|]. intros h p DF _ B. apply (frame_unique NL) in DF as [-> _]; [|exact O1|apply wf_bytesb_spec; reflexivity|reflexivity]. discriminate B. }
  pose proof (W f1 (or_introl eq_refl)) as W1. pose proof (W f2 (or_intror (or_introl eq_refl))) as W2. pose proof (W altered (or_intror (or_intror (or_introl eq_refl)))) as W3. pose proof (W plain (or_intror (or_intror (or_intror (or_introl eq_refl))))) as W4.
  pose proof (C f1 (or_introl eq_refl)) as C1. pose proof (C f2 (or_intror (or_introl eq_refl))) as C2. pose proof (C altered (or_intror (or_intror (or_introl eq_refl)))) as C3. pose proof (C plain (or_intror (or_intror (or_intror (or_introl eq_refl))))) as C4.
  assert (F1 : forall sent, In (item toy_aad m1) sent -> ~ is_foreign c toy_aad Mic_Short true sent f1).
  { intros sent I. apply (not_foreign NL); [exact O2|apply wf_bytesb_spec; vm_compute; reflexivity|reflexivity|reflexivity|reflexivity|].
    intros key. cbn [c toy unseal]. destruct (key =? 0)%N; [|exact Logic.I]. destruct (list_eq_dec N.eq_dec _ _) as [_|Z]; [exact I|exact Logic.I]. }
  assert (F2 : forall sent, In (item toy_aad m2) sent -> ~ is_foreign c toy_aad Mic_Short true sent f2).
  { intros sent I. apply (not_foreign NL); [exact O2|apply wf_bytesb_spec; vm_compute; reflexivity|reflexivity|reflexivity|reflexivity|].
    intros key. cbn [c toy unseal]. destruct (key =? 0)%N; [|exact Logic.I]. destruct (list_eq_dec N.eq_dec _ _) as [_|Z]; [exact I|exact Logic.I]. }
  assert (Fa : forall sent, ~ is_foreign c toy_aad Mic_Short true sent altered).
  { intros sent. apply (not_foreign NL); [exact O2|apply wf_bytesb_spec; vm_compute; reflexivity|reflexivity|reflexivity|reflexivity|].
    intros key. cbn [c toy unseal]. destruct (key =? 0)%N eqn:K; [|exact I]. apply N.eqb_eq in K. subst key. destruct (list_eq_dec N.eq_dec _ _) as [Z|Z]; [|exact I].
    exfalso. vm_compute in Z. discriminate Z. }
  assert (Fp : forall sent, ~ is_foreign c toy_aad Mic_Short true sent plain).
  { intros sent (h & hdr & text & tag & key & pl & DF & B & _). apply (frame_unique NL) in DF as [-> _]; [|exact O1|apply wf_bytesb_spec; reflexivity|reflexivity]. discriminate B. }
  assert (H : forall pn p l, (pn < 2 ^ 48)%N -> wf_bytes p -> In (toy_frame Mic_Short true pn p) l -> message_size Mic_Short (toy_message pn p) + slack <= 100 ->
    is_heard c toy_aad Mic_Short true 0 (toy_message pn p) l).
  { intros pn p l P Wp I L. exists (repeat 0%N 100), (toy_frame Mic_Short true pn p). assert (W0 : wf_bytes (repeat 0%N 100)) by (apply wf_bytesb_spec; reflexivity).
    split; [exact W0|]. split; [exact L|]. split; [|exact I]. now apply toy_sent. }
  assert (A : ok_cipher c Mic_Short 0 /\
    Forall (fun r => ok_message (fst r) /\ end_ok (m_plain (fst r)) /\ Forall wf_bytes (snd r) /\ Forall (complete_frame Mic_Short true) (snd r) /\
      is_heard c toy_aad Mic_Short true 0 (fst r) (snd r)) rounds /\
    nothing_foreign c toy_aad Mic_Short true [] rounds /\ rising (map (fun r => item toy_aad (fst r)) rounds)).
  { split; [apply toy_ok|]. split; [|split].
    - apply Forall_cons; [|apply Forall_cons; [|apply Forall_nil]]; cbn [fst snd].
      + split; [split; [exact O1|split; [reflexivity|split; [reflexivity|apply wf_bytesb_spec; reflexivity]]]|]. split; [right; discriminate|].
        split; [exact (Forall_cons _ W1 (Forall_cons _ W1 (Forall_nil _)))|]. split; [exact (Forall_cons _ C1 (Forall_cons _ C1 (Forall_nil _)))|].
        apply H; [reflexivity|apply wf_bytesb_spec; reflexivity|now left|]. unfold slack. destruct strict_end; vm_compute; lia.
      + split; [split; [exact O1|split; [reflexivity|split; [reflexivity|apply wf_bytesb_spec; reflexivity]]]|]. split; [right; discriminate|].
        split; [exact (Forall_cons _ W1 (Forall_cons _ W3 (Forall_cons _ W2 (Forall_cons _ W4 (Forall_cons _ W2 (Forall_nil _))))))|]. split; [exact (Forall_cons _ C1 (Forall_cons _ C3 (Forall_cons _ C2 (Forall_cons _ C4 (Forall_cons _ C2 (Forall_nil _))))))|].
        apply H; [reflexivity|apply wf_bytesb_spec; reflexivity|right; right; now left|]. unfold slack. destruct strict_end; vm_compute; lia.
    - split; [|split; [|exact I]]; cbn [app].
      + apply Forall_cons; [apply F1; now left|]. apply Forall_cons; [apply F1; now left|]. apply Forall_nil.
      + apply Forall_cons; [apply F1; now left|]. apply Forall_cons; [apply Fa|]. apply Forall_cons; [apply F2; right; now left|]. apply Forall_cons; [apply Fp|].
        apply Forall_cons; [apply F2; right; now left|]. apply Forall_nil.
    - repeat constructor. }
  split; [exact A|]. destruct A as (A1 & A2 & A3 & A4). split; [rewrite (link_live c toy_aad Mic_Short true NL rounds A1 A2 A3 A4); reflexivity|].
  split; [apply toy_ok|]. intros pn a text tag. reflexivity.
Qed.
