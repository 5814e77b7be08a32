(** Downgrade protection: before there are keys the two sides of a handshake tell each other in the clear which security they offer or choose (beacon, probe response,
    association request), where anybody can put other words into their mouths; with the keys each repeats its RSN element in a key frame, and the other
    compares. *)
From Verif Require Import Base SpecBase Elements SpecElements Suites Rsn SpecRsn Eapol SpecEapol KeyMgmt SpecKeyMgmt SpecHandshake SpecReplay.

Section Spec.
Context {cfg : Cfg}.
(** [rsn] is the first RSN element (9.4.2.24, identifier 48) among the elements *)
Definition first_rsn (es : list RawElement) (rsn : RawElement) : Prop :=
  exists before after, es = before ++ rsn :: after /\ re_type rsn = 48%N /\ Forall (fun e => re_type e <> 48%N) before.
(** The sender, who has the keys: its key frame [s] has key data made of elements (encrypted or not, as the key information says) of which [rsn] is the first RSN
    element. *)
Definition confirms (wrap : bytes -> bytes -> bytes) (kek : bytes) (rsn : RawElement) (s : KeyFrame bytes) : Prop :=
  exists es, first_rsn es rsn /\ Forall fits es /\ wf_bytes (enc_elements es) /\ end_visible es [] /\
    key_data s = sent_data wrap kek (key_information s) (enc_elements es).
(** The receiver compares what it has read in the clear, the elements [clear] of some frame, with the key data [confirmed] of a key frame that it has taken: it
    looks the RSN element up in both, and goes on if there is one and the two are the same, byte by byte (12.7.6.4). *)
Definition same_element (a b : RawElement) : bool := (re_type a =? re_type b)%N && (if list_eq_dec N.eq_dec (re_slice a) (re_slice b) then true else false).
Definition goes_on (clear confirmed : bytes) : bool :=
  match get_first_element_raw clear (Id 48), get_first_element_raw confirmed (Id 48) with
  | Ok (Some a), Ok (Some b) => same_element a b
  | _, _ => false
  end.
(** what was in the clear is the sender's RSN element *)
Definition genuine (clear : bytes) (rsn : RawElement) : Prop := exists es, raw_elements clear = Ok es /\ first_rsn es rsn.
(** an element for a security that the crate can carry (C17) *)
Definition security_element (v : RsnView) (rsn : RawElement) : Prop :=
  rsn = mkRaw 48 (enc_rsn 1 v) /\ ok_view v /\ gap_free v /\ length (enc_rsn 1 v) <= 255 /\ end_not_empty_list v /\ pmkid_count v = 0 /\ caps_readable v.
End Spec.
