(** Vocabulary for elements that are received, read with their type and sent again. *)
From Verif Require Import Base SpecBase Elements SpecElements Rsn.

Section Spec.
Context {cfg : Cfg}.
(** Values of the type [t] that were read from a received body [bs] can be written again: what is written is [kept bs], as many bytes as
    are announced, no more than were received; it is read as the same value. [back] turns what is read into what is written, for types where
    these differ. Bodies of elements have at most 255 bytes. *)
Definition Resent {W R} (t : ElementType W R) (back : R -> W) (kept : bytes -> bytes) : Prop :=
  forall bs x n, wf_bytes bs -> length bs <= 255 -> et_read t bs = Ok (x, n) ->
    wf_bytes (kept bs) /\ length (kept bs) <= length bs /\ (kept bs = [] -> bs = []) /\
    Writes (et_write t (back x)) (kept bs) /\ et_measure t (back x) = length (kept bs) /\
    exists m, et_read t (kept bs) = Ok (x, m).
End Spec.

(** ** What is kept *)
Definition all_of (bs : bytes) : bytes := bs.
(** HT capabilities, 9.4.2.55: the two reserved bytes behind the transmit flags of the MCS set are zero *)
Definition kept_ht_cap (bs : bytes) : bytes := firstn 17 bs ++ [0; 0]%N ++ firstn 7 (skipn 19 bs).
(** OWE transition mode: BSSID, length, SSID; band and channel if both are there *)
Definition kept_owe (bs : bytes) : bytes :=
  let ssid_end := 7 + N.to_nat (nth 6 bs 0%N) in
  firstn (if ssid_end + 2 <=? length bs then ssid_end + 2 else ssid_end) bs.
(** RSN: the bytes the reader takes for the list of PMKIDs *)
Definition pmkid_bytes (y : Rsn) : bytes := match rsn_pmkids y with Some (Iter b) => b | _ => [] end.
(** HT operation, 9.4.2.56: the channel, five bytes of information, the MCS set *)
Definition kept_ht_op (bs : bytes) : bytes :=
  [nth 0 bs 0; 0; 0; 0; nth 5 bs 0; nth 4 bs 0]%N ++ firstn 14 (skipn 6 bs) ++ [0; 0]%N.
