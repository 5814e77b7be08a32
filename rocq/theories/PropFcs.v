(** C01, C02: the frame check sequence. *)
From Verif Require Import Base BaseFacts Crc SpecFcs CrcFacts FcsFacts FcsZech CrcPolyFacts.

(** ** C01 *)
(** Writing: [attach_fcs] on a buffer that starts with the [n] bytes [p] written so far appends
    the little-endian CRC-32 of [p], changes nothing else and advances the offset by four; if
    fewer than four bytes are left it fails (no panic). *)
Theorem C01_attach : forall (cfg : Cfg) (p rest : bytes),
  (4 <= length rest ->
     attach_fcs (p ++ rest) (length p)
     = Ok (p ++ le_bytes 4 (crc32 p) ++ skipn 4 rest, length p + 4))
  /\ (length rest < 4 -> exists e, attach_fcs (p ++ rest) (length p) = Err e).
Proof. exact @attach_fcs_spec. Qed.
Print Assumptions C01_attach.
Example C01_attach_ex : 4 <= length [0;0;0;0;9]%N.
Proof. cbn. lia. Qed.

(** Reading: of all byte strings with at least four bytes exactly those are accepted that end in
    the little-endian CRC-32 of the rest, and the parser sees the rest. *)
Theorem C01_strip : forall (cfg : Cfg) (bs : bytes), wf_bytes bs ->
  (forall body, strip_and_validate_fcs bs = Ok body <-> bs = body ++ le_bytes 4 (crc32 body))
  /\ (strip_and_validate_fcs bs = Panic <-> length bs < 4).
Proof. exact @strip_fcs_spec. Qed.
Print Assumptions C01_strip.
Example C01_strip_ex (cfg : Cfg) :
  let body := [1;2;3;4;5]%N in
  wf_bytes (body ++ le_bytes 4 (crc32 body)) /\
  strip_and_validate_fcs (body ++ le_bytes 4 (crc32 body)) = Ok body.
Proof.
  cbn zeta. assert (W : wf_bytes [1;2;3;4;5]%N) by (apply wf_bytesb_spec; reflexivity). split.
  - apply wf_bytes_app. split; [exact W|apply le_bytes_wf].
  - now apply strip_fcs_ok.
Qed.

(** What is attached validates: writing then reading gives back the covered bytes. *)
Theorem C01_roundtrip : forall (cfg : Cfg) (p rest : bytes), wf_bytes p -> 4 <= length rest ->
  exists buf', attach_fcs (p ++ rest) (length p) = Ok (buf', length p + 4) /\
               strip_and_validate_fcs (firstn (length p + 4) buf') = Ok p.
Proof. exact @attach_then_strip. Qed.
Print Assumptions C01_roundtrip.

(** The CRC-32 here is the frame check sequence of the standard, [is_fcs] (SpecFcs.v), and no other four bytes are. *)
Theorem C01_standard : forall (bs fcs : bytes), wf_bytes bs -> (is_fcs bs fcs <-> fcs = le_bytes 4 (crc32 bs)).
Proof. exact @fcs_standard. Qed.
Print Assumptions C01_standard.
(** So exactly the frames with the standard's frame check sequence are accepted. *)
Theorem C01_accepted : forall (cfg : Cfg) (bs : bytes), wf_bytes bs ->
  forall body, strip_and_validate_fcs bs = Ok body <-> exists fcs, bs = body ++ fcs /\ is_fcs body fcs.
Proof. exact @accepted_fcs. Qed.
Print Assumptions C01_accepted.
(** Division by the generator polynomial: there is one remainder. *)
Theorem C01_remainder : forall a, exists r, remainder a r /\ forall r', remainder a r' -> r' = r.
Proof. exact @one_remainder. Qed.
Print Assumptions C01_remainder.
(** x^32 leaves the other terms of the generator polynomial *)
Example C01_remainder_ex : remainder (2 ^ 32) 0x04C11DB7.
Proof. split; [reflexivity|]. now exists 1%N. Qed.
(** The published check value for "123456789". *)
Theorem C01_crc_check_value : crc32 [49;50;51;52;53;54;55;56;57]%N = 0xCBF43926%N.
Proof. exact @crc32_check. Qed.

(** ** C02 *)
(** [frame_bit f i] is bit [i] of the frame in transmission order (least significant bit of
    each byte first). A changed frame whose changes all lie in a window of 32 consecutive bits
    starting anywhere is rejected. *)
Theorem C02_burst_detected : forall (cfg : Cfg) (sent received : bytes) (k : nat),
  wf_bytes sent -> wf_bytes received -> length sent = length received ->
  (forall i, i < k \/ k + 32 <= i -> frame_bit sent i = frame_bit received i) ->
  sent <> received ->
  (exists body, strip_and_validate_fcs sent = Ok body) ->
  exists e, strip_and_validate_fcs received = Err e.
Proof. exact @fcs_burst. Qed.
Print Assumptions C02_burst_detected.

(** in particular: any change confined to four consecutive bytes *)
Theorem C02_four_bytes_detected : forall (cfg : Cfg) (p w w' q : bytes),
  wf_bytes (p ++ w ++ q) -> wf_bytes w' -> length w' = length w -> length w <= 4 -> w <> w' ->
  (exists body, strip_and_validate_fcs (p ++ w ++ q) = Ok body) ->
  exists e, strip_and_validate_fcs (p ++ w' ++ q) = Err e.
Proof. exact @fcs_four_bytes. Qed.
Print Assumptions C02_four_bytes_detected.
Example C02_ex (cfg : Cfg) :
  let body := [7;7;7;7;7;7]%N in
  (exists b, strip_and_validate_fcs ([7] ++ [7;7;7;7] ++ ([7] ++ le_bytes 4 (crc32 body)))%N = Ok b)
  /\ wf_bytes [8;7;9;255]%N /\ [7;7;7;7]%N <> [8;7;9;255]%N.
Proof.
  cbn zeta. split; [|split; [apply wf_bytesb_spec; reflexivity|discriminate]].
  exists [7;7;7;7;7;7]%N. apply (strip_fcs_ok [7;7;7;7;7;7]%N). apply wf_bytesb_spec. reflexivity.
Qed.

(** Independent bit errors. [flips] lists the positions that may have changed, anywhere in the
    frame: up to two in a frame shorter than 2^29 bytes, *)
Theorem C02_two_bits_detected : forall (cfg : Cfg) (sent received : bytes) (flips : list nat),
  wf_bytes sent -> wf_bytes received -> length sent = length received ->
  (forall i, ~ In i flips -> frame_bit sent i = frame_bit received i) ->
  sent <> received ->
  (exists body, strip_and_validate_fcs sent = Ok body) ->
  length flips <= 2 -> (N.of_nat (length sent) < 2 ^ 29)%N ->
  exists e, strip_and_validate_fcs received = Err e.
Proof. exact @two_bits. Qed.
Print Assumptions C02_two_bits_detected.
(** up to three in a frame of up to 11454 bytes, the longest frame the standard allows, *)
Theorem C02_three_bits_detected : forall (cfg : Cfg) (sent received : bytes) (flips : list nat),
  wf_bytes sent -> wf_bytes received -> length sent = length received ->
  (forall i, ~ In i flips -> frame_bit sent i = frame_bit received i) ->
  sent <> received ->
  (exists body, strip_and_validate_fcs sent = Ok body) ->
  length flips <= 3 -> (N.of_nat (length sent) <= 11454)%N ->
  exists e, strip_and_validate_fcs received = Err e.
Proof. exact @three_bits. Qed.
Print Assumptions C02_three_bits_detected.
(** up to four in a frame of up to 375 bytes, *)
Theorem C02_four_bits_detected : forall (cfg : Cfg) (sent received : bytes) (flips : list nat),
  wf_bytes sent -> wf_bytes received -> length sent = length received ->
  (forall i, ~ In i flips -> frame_bit sent i = frame_bit received i) ->
  sent <> received ->
  (exists body, strip_and_validate_fcs sent = Ok body) ->
  length flips <= 4 -> length sent <= 375 ->
  exists e, strip_and_validate_fcs received = Err e.
Proof. exact @four_bits. Qed.
Print Assumptions C02_four_bits_detected.
(** up to five in a frame of up to 37 bytes. *)
Theorem C02_five_bits_detected : forall (cfg : Cfg) (sent received : bytes) (flips : list nat),
  wf_bytes sent -> wf_bytes received -> length sent = length received ->
  (forall i, ~ In i flips -> frame_bit sent i = frame_bit received i) ->
  sent <> received ->
  (exists body, strip_and_validate_fcs sent = Ok body) ->
  length flips <= 5 -> length sent <= 37 ->
  exists e, strip_and_validate_fcs received = Err e.
Proof. exact @five_bits. Qed.
Print Assumptions C02_five_bits_detected.
(** These two lengths cannot be exceeded: in a frame of 38 bytes five changed bits can go unnoticed, in one of 376 bytes four. *)
Theorem C02_limits : forall (cfg : Cfg) n flips, (n, flips) = (38, [3; 148; 186; 214; 303]) \/ (n, flips) = (376, [1; 141; 792; 3007]) ->
  exists sent received, wf_bytes sent /\ wf_bytes received /\ length sent = n /\ length received = n /\
    (forall i, ~ In i flips -> frame_bit sent i = frame_bit received i) /\ sent <> received /\
    (exists body, strip_and_validate_fcs sent = Ok body) /\ (exists body, strip_and_validate_fcs received = Ok body).
Proof. exact @detection_limits. Qed.
Print Assumptions C02_limits.
(** Five changed bits, spread over a frame of 37 bytes: *)
Example C02_bits_ex (cfg : Cfg) :
  let body := repeat 7%N 33 in let sent := body ++ le_bytes 4 (crc32 body) in
  let received := ([6] ++ repeat 7 15 ++ [15] ++ repeat 7 14 ++ [39] ++ [135] ++ [N.lxor (nth 33 sent 0) 4] ++ skipn 34 sent)%N in
  wf_bytes sent /\ wf_bytes received /\ length sent = length received /\
  (forall i, ~ In i [0; 131; 253; 263; 266] -> frame_bit sent i = frame_bit received i) /\ sent <> received /\
  (exists b, strip_and_validate_fcs sent = Ok b) /\ length sent <= 37.
Proof.
  cbn zeta. split; [apply wf_bytesb_spec; vm_compute; reflexivity|]. split; [apply wf_bytesb_spec; vm_compute; reflexivity|].
  split; [vm_compute; reflexivity|]. split; [|split; [vm_compute; discriminate|split]].
  - apply differsb_spec; vm_compute; reflexivity.
  - exists (repeat 7%N 33). apply strip_fcs_ok. apply wf_bytesb_spec. reflexivity.
  - vm_compute. lia.
Qed.
