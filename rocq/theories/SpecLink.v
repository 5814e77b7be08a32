(** A link with protected data frames, for senders and receivers that are built on this crate and bring their own cipher (CCMP or GCMP). *)
From Verif Require Import Base SpecBase Mgmt SpecMgmt CryptoHeader Data SpecData SpecKeyMgmt SpecHandshake SpecReplay.

(** ** The cipher *)
(** Key ID, packet number, additional authenticated data and plaintext give ciphertext and MIC; and back, if the MIC is right.
    [ok_cipher c mic key]: so for this key. *)
Record Cipher := mkCipher { seal : N -> N -> bytes -> bytes -> bytes * bytes; unseal : N -> N -> bytes -> bytes -> bytes -> option bytes }.
Definition mic_size (mic : MicState) : nat := match mic with Mic_NotPresent => 0 | Mic_Short => 8 | Mic_Long => 16 end.
Definition ok_cipher (c : Cipher) (mic : MicState) (key : N) : Prop :=
  forall pn aad plain, wf_bytes plain ->
    let '(text, tag) := seal c key pn aad plain in
    wf_bytes text /\ length text = length plain /\ wf_bytes tag /\ length tag = mic_size mic /\ unseal c key pn aad text tag = Some plain.

(** ** The sender *)
(** what is sent: a header, a packet number and a plaintext; what the receiver is to learn of it: number, authenticated data ([aad] makes them of the
    header) and plaintext *)
Record Message := mkMessage { m_header : DataHeader; m_number : N; m_plain : bytes }.
Definition Item : Type := N * bytes * bytes.
Definition item_number (i : Item) : N := fst (fst i).
Definition item (aad : DataHeader -> bytes) (m : Message) : Item := (m_number m, aad (set_protected (m_header m)), m_plain m).
(** The ciphertext is wrapped and written, the MIC stored in the place reserved for it, and the frame check sequence added. *)
Definition send_message {cfg : Cfg} (c : Cipher) (aad : DataHeader -> bytes) (mic : MicState) (fcs : bool) (key : N) (m : Message) (buf : bytes) : Res serr bytes :=
  let '(text, tag) := seal c key (m_number m) (aad (set_protected (m_header m))) (m_plain m) in
  match ch_new (m_number m) key with
  | None => Err BadInput
  | Some ch =>
    '(buf', n) <- wr_data (wrapped_container (crypto_wrap (m_header m, Some (c_bytes text)) ch mic)) false buf ;;
    Ok (enc_frame fcs (firstn (n - mic_size mic) buf' ++ tag))
  end.
Definition ok_message (m : Message) : Prop :=
  ok_data_header (m_header m) /\ std_has_payload (subtype_number (m_header m)) = true /\ (m_number m < 2 ^ 48)%N /\ wf_bytes (m_plain m).
(** room for header, CCMP/GCMP header, plaintext and MIC *)
Definition message_size (mic : MicState) (m : Message) : nat := length (enc_data (m_header m) (m_plain m)) + 8 + mic_size mic.

(** ** The receiver *)
(** reads the frame, unwraps the payload, selects the key with the key ID and opens the payload; frames that are not protected are dropped *)
Definition open_frame {cfg : Cfg} (c : Cipher) (aad : DataHeader -> bytes) (mic : MicState) (fcs : bool) (b : bytes) : Res serr (option Item) :=
  match rd_data fcs b with
  | Ok ((h, Some p), _) =>
    match potentially_wrapped_payload (h, Some p) (Some mic) with
    | Ok (Some (CryptoWrapped _ w)) =>
      let text := match cw_payload w with Pl_Single bs => bs | Pl_AMSDU (Some bs) => bs | Pl_AMSDU None => [] end in
      let tag := skipn (length p - mic_size mic) p in
      let pn := ch_packet_number (cw_header w) in
      Ok (match unseal c (ch_key_id (cw_header w)) pn (aad h) text tag with Some plain => Some (pn, aad h, plain) | None => None end)
    | Ok _ | Err _ => Ok None
    | Panic => Panic
    end
  | Ok _ | Err _ => Ok None
  | Panic => Panic
  end.
(** keeps the last packet number, takes what has a newer one, and is gone after a panic *)
Fixpoint link (hear : bytes -> Res serr (option Item)) (last : option N) (air : list bytes) : list Item :=
  match air with
  | [] => []
  | b :: rest =>
    match hear b with
    | Ok (Some i) => if newer last (item_number i) then i :: link hear (Some (item_number i)) rest else link hear last rest
    | Ok None | Err _ => link hear last rest
    | Panic => []
    end
  end.

(** ** What is heard *)
(** [b] is a data frame with header [h] and payload [p] in the layout of the standard *)
Definition data_frame_of (fcs : bool) (b : bytes) (h : DataHeader) (p : bytes) : Prop :=
  exists b0, ok_data_header h /\ ((b0 / 4) mod 4 = 2)%N /\ subtype_number h = ((b0 / 16) mod 16)%N /\
    frame_part fcs b = [b0; dh_flags h] ++ enc_data_header h ++ p.
(** [b] opens, but to something that was not sent: whoever made it can make MICs without the key, or has the key.
    (The payload begins with a CCMP/GCMP header, with the Ext IV bit.) *)
Definition is_foreign (c : Cipher) (aad : DataHeader -> bytes) (mic : MicState) (fcs : bool) (sent : list Item) (b : bytes) : Prop :=
  exists h hdr text tag key plain, data_frame_of fcs b h (hdr ++ text ++ tag) /\ N.testbit (dh_flags h) 6 = true /\
    length hdr = 8 /\ N.testbit (nth 3 hdr 0%N) 5 = true /\ length tag = mic_size mic /\
    let pn := le_val (firstn 2 hdr ++ skipn 4 hdr) in
    unseal c key pn (aad h) text tag = Some plain /\ ~ In (pn, aad h, plain) sent.
(** Nothing in [b] makes the receiver panic: there is room for a frame check sequence, and protected payloads are complete. *)
Definition complete_frame {cfg : Cfg} (mic : MicState) (fcs : bool) (b : bytes) : Prop :=
  (fcs = true -> 4 <= length b) /\
  forall h p, data_frame_of fcs b h p -> std_has_payload (subtype_number h) = true -> N.testbit (dh_flags h) 6 = true ->
    exists hdr text tag, encapsulated mic p hdr text tag /\ end_ok text.

(** ** Histories *)
(** In every round a message is sent, and then byte strings of anybody are heard. *)
Definition Rounds := list (Message * list bytes).
Fixpoint nothing_foreign (c : Cipher) (aad : DataHeader -> bytes) (mic : MicState) (fcs : bool) (past : list Item) (rounds : Rounds) : Prop :=
  match rounds with
  | [] => True
  | (m, air) :: rest => Forall (fun b => ~ is_foreign c aad mic fcs (past ++ [item aad m]) b) air /\ nothing_foreign c aad mic fcs (past ++ [item aad m]) rest
  end.
(** the message, sent with key ID [key] from any large enough buffer, is among what is heard *)
Definition is_heard {cfg : Cfg} (c : Cipher) (aad : DataHeader -> bytes) (mic : MicState) (fcs : bool) (key : N) (m : Message) (air : list bytes) : Prop :=
  exists buf f, wf_bytes buf /\ message_size mic m + slack <= length buf /\ send_message c aad mic fcs key m buf = Ok f /\ In f air.
Fixpoint rising (l : list Item) : Prop :=
  match l with [] => True | i :: rest => Forall (fun j => (item_number i < item_number j)%N) rest /\ rising rest end.
