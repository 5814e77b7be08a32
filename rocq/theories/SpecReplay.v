(** A receiver of key frames that runs for any length of time and hears what anybody sends. *)
From Verif Require Import Base SpecBase Suites Eapol SpecEapol KeyMgmt SpecKeyMgmt SpecHandshake SpecArrival.

(** ** What is sent *)
(** A key frame [s] as it is sent, apart from its MIC (of 16 bytes): what its MIC is computed over, and the frame with the MIC *)
Definition mic_input (s : KeyFrame bytes) : bytes := enc_key_frame (with_mic s (repeat 0%N 16)).
Definition on_air (hmac : bytes -> bytes -> bytes) (kck : bytes) (s : KeyFrame bytes) : KeyFrame bytes := with_mic s (frame_mic hmac kck s).
Definition ok_sent (s : KeyFrame bytes) : Prop := ok_key_frame s /\ length (key_mic s) = 16.

(** ** What is heard *)
(** The byte string [b] has a correct MIC under the key, but of something that was not sent: whoever made it can compute MICs
    without the key, or has the key. *)
Definition is_forged (hmac : bytes -> bytes -> bytes) (kck : bytes) (with_fcs : bool) (sent : list (KeyFrame bytes)) (b : bytes) : Prop :=
  let f := frame_part with_fcs b in
  exists e, eapol_offset f e /\ mic_correct hmac kck f e 16 /\
    ~ In (between_bytes f e (e + 81) ++ repeat 0%N 16 ++ skipn (e + 81 + 16) f) (map mic_input sent).
(** The receiver: keeps the last replay counter; takes the frames with a MIC that are meant for it ([wanted] looks at the key information, for example
    at the bit of frames that are to be acknowledged, which only the authenticator sends) and have a newer counter; and is gone after a panic. *)
Definition newer (last : option N) (counter : N) : bool := match last with None => true | Some l => (l <? counter)%N end.
Definition chosen {P} (wanted : N -> bool) (k : KeyFrame P) : bool := N.testbit (key_information k) 8 && wanted (key_information k).
Fixpoint receiver (hear : bytes -> Res EapolSerdeError (KeyFrame bytes)) (wanted : N -> bool) (last : option N) (air : list bytes) : list (KeyFrame bytes) :=
  match air with
  | [] => []
  | b :: rest =>
    match hear b with
    | Ok k => if chosen wanted k && newer last (key_replay_counter k) then k :: receiver hear wanted (Some (key_replay_counter k)) rest
              else receiver hear wanted last rest
    | Err _ => receiver hear wanted last rest
    | Panic => []
    end
  end.
(** what the receiver gets for the sent frame [s]: the same fields and the MIC, and the key data, unwrapped if it was wrapped *)
Definition delivers (hmac : bytes -> bytes -> bytes) (unwrap : bytes -> bytes -> option bytes) (kck : bytes) (kek : option bytes) (s k : KeyFrame bytes) : Prop :=
  same_fields s k /\ key_mic k = frame_mic hmac kck s /\
  if N.testbit (key_information s) 12 then exists key, kek = Some key /\ unwrap key (key_data s) = Some (key_data k) else key_data k = key_data s.
(** the replay counters increase *)
Fixpoint increasing {P} (l : list (KeyFrame P)) : Prop :=
  match l with [] => True | s :: rest => Forall (fun s' => (key_replay_counter s < key_replay_counter s')%N) rest /\ increasing rest end.
Inductive subsequence {A} : list A -> list A -> Prop :=
| sub_nil : subsequence [] []
| sub_skip x l l' : subsequence l l' -> subsequence l (x :: l')
| sub_take x l l' : subsequence l l' -> subsequence (x :: l) (x :: l').

(** ** Histories *)
(** In every round a frame is sent by whoever has the keys, and then byte strings of anybody are heard. Nobody forges: what is heard may be a copy of
    anything sent until then, altered or not, or anything else. *)
Definition History := list (KeyFrame bytes * list bytes).
Fixpoint nothing_forged (hmac : bytes -> bytes -> bytes) (kck : bytes) (with_fcs : bool) (past : list (KeyFrame bytes)) (rounds : History) : Prop :=
  match rounds with
  | [] => True
  | (s, air) :: rest => Forall (fun b => ~ is_forged hmac kck with_fcs (past ++ [s]) b) air /\ nothing_forged hmac kck with_fcs (past ++ [s]) rest
  end.
(** the frame [s] is on the air, as a data frame of any kind, and the receiver has the key and the room to unwrap its key data *)
Definition gets_through (strict : bool) (hmac : bytes -> bytes -> bytes) (unwrap : bytes -> bytes -> option bytes) (kck : bytes) (kek : option bytes) (temp : nat)
  (with_fcs : bool) (s : KeyFrame bytes) (air : list bytes) : Prop :=
  exists h oui fcs k, SpecData.ok_data_header h /\ length oui = 3 /\ wf_bytes oui /\ length fcs = (if with_fcs then 4 else 0) /\
    In (enc_eapol h oui 0x888e (on_air hmac kck s) ++ fcs) air /\
    (strict = false \/ (if N.testbit (key_information s) 12 then 8 else 0) < length (key_data s)) /\
    arrival hmac unwrap (Some kck) kek temp (on_air hmac kck s) = Ok k.
