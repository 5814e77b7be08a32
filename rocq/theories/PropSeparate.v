(** C80: which keys depend on what. *)
From Verif Require Import Base SpecBase Bits Suites Rsn KeyMgmt SpecKeyMgmt SpecElementTypes SpecSeparate SeparateFacts.
From Coq Require Import Ascii.

(** ** C80 *)
(** The PTKs of two sessions agree whatever HMAC is used if and only if it is the same session: the same PMK, the same two addresses and the same two
    nonces. *)
Theorem C80_same : forall n s s', 0 < n -> ok_session s -> ok_session s' ->
  (forall hmac, hmac_sha1 hmac ->
     derive_ptk hmac (ss_pmk s) (ss_aa s) (ss_spa s) (ss_anonce s) (ss_snonce s) n =
     derive_ptk hmac (ss_pmk s') (ss_aa s') (ss_spa s') (ss_anonce s') (ss_snonce s') n) <-> same_session s s'.
Proof. exact @same_ptk_iff. Qed.
(** PTKs of different sessions and PMKIDs are independent: any assignment of PTKs to sessions, together with any assignment of PMKIDs, is what some HMAC gives. *)
Theorem C80_independent : forall n (ptk : Session -> bytes) (pmkid : bytes -> bytes -> bytes -> bytes), n <= 20 * 256 ->
  (forall s s', same_session s s' -> ptk s = ptk s') -> (forall s, byte_array n (ptk s)) -> (forall key aa spa, byte_array 16 (pmkid key aa spa)) ->
  exists hmac, hmac_sha1 hmac /\
    (forall s, ok_session s -> derive_ptk hmac (ss_pmk s) (ss_aa s) (ss_spa s) (ss_anonce s) (ss_snonce s) n = ptk s) /\
    (forall key aa spa, length aa = 6 -> length spa = 6 -> @generate_pmkid unit hmac key aa spa = Ok (pmkid key aa spa)).
Proof. exact @independent. Qed.
(** So are KCK, KEK and TK, of one session and of different ones. *)
Theorem C80_keys : forall akm cipher kl el tl (kck kek tk : Session -> bytes),
  kck_len akm = Some kl -> kek_len akm = Some el -> tk_len cipher = Some tl -> kl + el + tl <= 20 * 256 ->
  (forall s s', same_session s s' -> kck s = kck s' /\ kek s = kek s' /\ tk s = tk s') ->
  (forall s, byte_array kl (kck s) /\ byte_array el (kek s) /\ byte_array tl (tk s)) ->
  exists hmac, hmac_sha1 hmac /\ forall s, ok_session s ->
    partition_ptk (derive_ptk hmac (ss_pmk s) (ss_aa s) (ss_spa s) (ss_anonce s) (ss_snonce s) (kl + el + tl)) akm cipher = Some (kck s, kek s, tk s).
Proof. exact @independent_keys. Qed.
(** For one HMAC: if different sessions share the front of their PTKs (for example the KCK), then the HMACs of two different messages, which are known, share it. *)
Theorem C80_collision : forall hmac n s s', hmac_sha1 hmac -> ok_session s -> ok_session s' ->
  firstn n (derive_ptk hmac (ss_pmk s) (ss_aa s) (ss_spa s) (ss_anonce s) (ss_snonce s) 20) =
  firstn n (derive_ptk hmac (ss_pmk s') (ss_aa s') (ss_spa s') (ss_anonce s') (ss_snonce s') 20) ->
  same_session s s' \/
  exists alo ahi nlo nhi alo' ahi' nlo' nhi',
    min_max (ss_aa s) (ss_spa s) alo ahi /\ min_max (ss_anonce s) (ss_snonce s) nlo nhi /\
    min_max (ss_aa s') (ss_spa s') alo' ahi' /\ min_max (ss_anonce s') (ss_snonce s') nlo' nhi' /\
    let m := pairwise_key_expansion ++ [0]%N ++ alo ++ ahi ++ nlo ++ nhi ++ [0]%N in
    let m' := pairwise_key_expansion ++ [0]%N ++ alo' ++ ahi' ++ nlo' ++ nhi' ++ [0]%N in
    (ss_pmk s, m) <> (ss_pmk s', m') /\ firstn n (hmac (ss_pmk s) m) = firstn n (hmac (ss_pmk s') m').
Proof. exact @same_ptk_collision. Qed.
(** The PRF itself: outputs for different keys, labels or data are independent. *)
Theorem C80_prf : forall n (want : bytes -> String.string -> bytes -> bytes), n <= 20 * 256 -> (forall key label data, byte_array n (want key label data)) ->
  exists hmac, hmac_sha1 hmac /\ forall key label data, plain_label label -> prf_iter hmac key label data n = want key label (concat data).
Proof. exact @prf_independent. Qed.
Theorem C80_prf_same : forall n key label data key' label' data', 0 < n -> plain_label label -> plain_label label' ->
  (forall hmac, hmac_sha1 hmac -> prf_iter hmac key label data n = prf_iter hmac key' label' data' n) <->
  key = key' /\ label = label' /\ concat data = concat data'.
Proof. exact @same_prf_iff. Qed.
(** A label with a zero byte runs into the data. *)
Theorem C80_zero_label_refuted : let zero_label := String.String "a" (String.String Ascii.zero (String.String "b" String.EmptyString)) in
  ("a"%string, [98; 0; 99]%N) <> (zero_label, [99]%N) /\
  forall hmac key n, prf hmac key "a" [98; 0; 99]%N n = prf hmac key zero_label [99]%N n.
Proof. exact @prf_zero_label. Qed.
(** two stations, once with the roles exchanged and once with a new nonce *)
Example C80_ex : let s nonce := mkSession (repeat 9%N 32) (repeat 1%N 6) (repeat 2%N 6) (repeat nonce 32) (repeat 4%N 32) in
  ok_session (s 3%N) /\ ok_session (s 5%N) /\ ~ same_session (s 3%N) (s 5%N) /\
  same_session (s 3%N) (mkSession (repeat 9%N 32) (repeat 2%N 6) (repeat 1%N 6) (repeat 4%N 32) (repeat 3%N 32)) /\
  kck_len Ak_Psk = Some 16 /\ kek_len Ak_Psk = Some 16 /\ tk_len Cs_Ccmp128 = Some 16 /\ plain_label "Pairwise key expansion" /\
  let kck t := repeat (hd 0%N (ss_pmk t)) 16 in forall t t', same_session t t' -> kck t = kck t'.
Proof.
  assert (W : forall b n, (b < 256)%N -> wf_bytes (repeat b n)) by (intros b n L; apply Forall_forall; intros x I; apply repeat_spec in I; now subst).
  cbv zeta. unfold ok_session. cbn [ss_pmk ss_aa ss_spa ss_anonce ss_snonce].
  repeat match goal with |- _ /\ _ => split | |- same_session _ _ => fail 1 end; try (apply W; reflexivity); try apply repeat_length; try reflexivity.
  - intros (_ & _ & [[H _]|[H _]]); discriminate.
  - split; [reflexivity|]. split; right; split; reflexivity.
  - intros I. vm_compute in I. repeat (destruct I as [I|I]; [discriminate|]). exact I.
  - intros t t' (E & _). now rewrite E.
Qed.

Print Assumptions C80_same. Print Assumptions C80_independent. Print Assumptions C80_keys. Print Assumptions C80_collision.
Print Assumptions C80_prf. Print Assumptions C80_prf_same. Print Assumptions C80_zero_label_refuted.
