(** C50 and C51: iterators over received data; received data frames written again. *)
From Verif Require Import Base SpecBase Enums Common Crc Elements Mgmt SpecMgmt Rsn CryptoHeader Amsdu Data SpecData SpecForward ForwardFacts ElementsFacts.

(** ** C50: iterators over received data *)
(** For every kind of item (a reader that takes at least one byte per item) and every number of
    calls; [iter_all r bs = Ok all] says that collecting a new iterator over [bs] gives [all]. *)
Theorem C50_read_iterator : forall (A : Type) (r : reader A) bs all k,
  TakesBytes r -> iter_all r bs = Ok all -> Traversal (iter_next r) (iter_all r) bs all k.
Proof. exact @iter_traversal. Qed.
Print Assumptions C50_read_iterator.
Theorem C50_amsdu : forall (cfg : Cfg) bs all k, amsdu_items bs = Ok all -> Traversal sub_next amsdu_items bs all k.
Proof. exact @amsdu_traversal. Qed.
Print Assumptions C50_amsdu.
(** An iterator in any state is written as the bytes it has not read, and measures their number. *)
Theorem C50_forward : forall (cfg : Cfg) st,
  (Writes (iter_write st) (unread st) /\ (unread st <> [] -> WritesT (iter_write st) (unread st)) /\ iter_measure st = length (unread st)) /\
  (amsdu_iter_length st = length (unread st) /\
   Writes (c_write (c_payload (Pl_AMSDU st))) (unread st) /\ c_measure (c_payload (Pl_AMSDU st)) = length (unread st)).
Proof. exact (fun cfg st => conj (@iter_forward cfg st) (@amsdu_iter_bytes cfg st)). Qed.
Print Assumptions C50_forward.
(** [len()] is the number of items to come if every item is one byte long. *)
Theorem C50_len_partial : forall (A : Type) (r : reader A) bs, OneByteItems r ->
  exists all, iter_all r bs = Ok all /\ iter_len (Some bs) = length all.
Proof. exact @iter_len_one. Qed.
Print Assumptions C50_len_partial.
(** In every state, exhausted or not, [len()] is the number of bytes to come: divided by the size of an item it is
    the number of items to come. *)
Theorem C50_len_fixed : forall (A : Type) (r : reader A) size st, 0 < size -> ItemsOf size r ->
  exists later, iter_collect (S (length (unread st))) r st = Ok later /\ length later = iter_len st / size.
Proof. exact @iter_len_fixed. Qed.
Print Assumptions C50_len_fixed.
Example C50_len_ex : ItemsOf 1 rd_u8 /\ ItemsOf 16 rd_pmkid /\ iter_len None = 0.
Proof.
  split; [|split; [|reflexivity]].
  - split; intros [|b bs] L; cbn in L; try lia; eexists; reflexivity.
  - split; intros bs L; unfold rd_pmkid, rd_bytes; destruct (Nat.ltb_spec (length bs) 16); try lia; eexists; reflexivity.
Qed.
(** In general it is the number of bytes: a list of two PMKIDs has the length 32. *)
Theorem C50_len_refuted : exists all,
  iter_all rd_pmkid (repeat 7%N 32) = Ok all /\ length all = 2 /\ iter_len (Some (repeat 7%N 32)) = 32.
Proof. exact @iter_len_pmkid. Qed.
Print Assumptions C50_len_refuted.
(** three elements, the last of them incomplete *)
Example C50_ex (cfg : Cfg) : let bs := [0; 1; 65; 3; 1; 6; 5; 9]%N in
  TakesBytes rd_raw_tlv /\ OneByteItems rd_u8 /\ iter_all rd_raw_tlv bs = Ok [mkRaw 0 [65]%N; mkRaw 3 [6]%N] /\
  call_next (iter_next rd_raw_tlv) 1 (Some bs) = Ok ([Some (mkRaw 0 [65]%N)], Some [3; 1; 6; 5; 9]%N) /\
  call_next (iter_next rd_raw_tlv) 4 (Some bs) = Ok ([Some (mkRaw 0 [65]%N); Some (mkRaw 3 [6]%N); None; None], None).
Proof.
  split; [exact rd_raw_tlv_P|]. split.
  - split; [eexists; reflexivity|]. intros b rest. eexists. reflexivity.
  - destruct cfg as [[] [] []]; repeat split.
Qed.

(** ** C51: received data frames are written again unchanged *)
(** [bs] is any byte string the parser accepts, with or without FCS, of protocol version zero. A
    frame without payload must not have further bytes. The payload is the byte string read or what
    [potentially_wrapped_payload] returned for it. *)
Theorem C51_partial : forall (cfg : Cfg) (fcs : bool) bs h p n,
  wf_bytes bs -> native_le = true -> rd_data fcs bs = Ok ((h, p), n) ->
  (nth 0 bs 0 mod 4 = 0)%N -> (p = None -> length bs = n + if fcs then 4 else 0) ->
  Writes (wr_data (h, match p with Some b => Some (c_bytes b) | None => None end) fcs) bs /\
  data_length (h, p) + (if fcs then 4 else 0) = length bs /\
  (forall b mic pl, p = Some b -> potentially_wrapped_payload (h, p) mic = Ok (Some (Unwrapped _ pl)) ->
     Writes (wr_data (h, Some (c_payload pl)) fcs) bs /\ payload_length pl = length b /\
     data_measure (h, Some (c_payload pl)) fcs = length bs).
Proof. exact @data_forward. Qed.
Print Assumptions C51_partial.
(** The length of a frame that was read is the header's and the payload's. *)
Theorem C51_length : forall (cfg : Cfg) fcs h p n bs, wf_bytes bs -> native_le = true -> rd_data fcs bs = Ok ((h, p), n) ->
  data_length (h, p) = match p with Some b => n + length b | None => n end.
Proof. exact @data_forward_drops. Qed.
Print Assumptions C51_length.
(** Bytes behind a null frame are dropped, and the version bits are written as zero. *)
Theorem C51_refuted : forall (cfg : Cfg), native_le = true ->
  (exists h p n buf m, rd_data false (null_frame ++ [7%N]) = Ok ((h, p), n) /\
     wr_data (h, match p with Some b => Some (c_bytes b) | None => None end) false (repeat 0%N 64) = Ok (buf, m) /\ m = 24 /\ firstn m buf = null_frame) /\
  (exists h p n buf m, rd_data false (73%N :: tl null_frame) = Ok ((h, p), n) /\
     wr_data (h, match p with Some b => Some (c_bytes b) | None => None end) false (repeat 0%N 64) = Ok (buf, m) /\ m = 24 /\ firstn m buf = null_frame).
Proof. exact @forward_refuted. Qed.
Print Assumptions C51_refuted.
(** an A-MSDU with FCS *)
Example C51_ex (cfg : Cfg) : native_le = true ->
  let frame := [136; 2; 0; 0; 1; 1; 1; 1; 1; 1; 2; 2; 2; 2; 2; 2; 3; 3; 3; 3; 3; 3; 16; 0; 128; 0; 9; 9; 9]%N in
  let bs := enc_frame true frame in
  exists h p n pl, rd_data true bs = Ok ((h, Some p), n) /\ potentially_wrapped_payload (h, Some p) None = Ok (Some (Unwrapped _ pl)) /\
    pl = Pl_AMSDU (Some [9; 9; 9]%N) /\ data_length (h, Some p) = 29.
Proof.
  destruct cfg as [[] [] []]; intros NL; try discriminate NL; cbv zeta; do 4 eexists; (split; [vm_compute; reflexivity|]);
    (split; [vm_compute; reflexivity|split; reflexivity]).
Qed.
