(** An HMAC can be chosen such that keys have any wanted values: keys of different sessions are independent. *)
From Verif Require Import Base SpecBase BaseFacts Bits Suites Rsn KeyMgmt SpecKeyMgmt KeyMgmtFacts SpecSeparate SpecElementTypes.
From Coq Require Import Ascii.

(** 20 bytes of any list *)
Definition twenty (x : bytes) : bytes := map (fun b => b mod 256)%N (firstn 20 (x ++ repeat 0%N 20)).
Lemma twenty_length x : length (twenty x) = 20.
Proof. unfold twenty. rewrite map_length, firstn_length, app_length, repeat_length. lia. Qed.
Lemma twenty_wf x : wf_bytes (twenty x).
Proof. apply Forall_forall. intros b I. apply in_map_iff in I as (a & <- & _). apply N.mod_lt. discriminate. Qed.
Lemma map_mod_wf x : wf_bytes x -> map (fun b => b mod 256)%N x = x.
Proof. induction 1 as [|a l A F IH]; [reflexivity|]. cbn [map]. now rewrite (N.mod_small a 256 A), IH. Qed.
Lemma twenty_front x : wf_bytes x -> firstn (length x) (twenty x) = firstn 20 x.
Proof.
  intros W. unfold twenty. rewrite map_mod_wf.
  - rewrite firstn_firstn. destruct (le_lt_dec 20 (length x)).
    + rewrite Nat.min_r by lia. rewrite firstn_app. replace (20 - length x) with 0 by lia. now rewrite app_nil_r.
    + rewrite Nat.min_l by lia. rewrite firstn_app, Nat.sub_diag, app_nil_r, firstn_all. symmetry. apply firstn_all2. lia.
  - apply wf_firstn. apply wf_bytes_app. split; [exact W|]. apply Forall_forall. intros b I. apply repeat_spec in I. subst. lia.
Qed.
(** the blocks of a list *)
Lemma blocks_front : forall blocks x i, wf_bytes x -> length x <= 20 * (i + blocks) ->
  firstn (length x - 20 * i) (concat (map (fun j => twenty (skipn (20 * j) x)) (seq i blocks))) = skipn (20 * i) x.
Proof.
  induction blocks as [|blocks IH]; intros x i W L.
  - replace (length x - 20 * i) with 0 by lia. symmetry. apply skipn_all2. lia.
  - cbn [seq map concat].
    set (y := skipn (20 * i) x). assert (Ly : length y = length x - 20 * i) by apply skipn_length.
    assert (Wy : wf_bytes y) by (apply wf_skipn; exact W).
    destruct (le_lt_dec (length y) 20) as [B|B].
    + rewrite firstn_app, twenty_length, <- Ly. replace (length y - 20) with 0 by lia. rewrite firstn_O, app_nil_r.
      rewrite twenty_front by exact Wy. now apply firstn_all2.
    + rewrite firstn_app, twenty_length. rewrite (firstn_all2 (twenty y)) by (rewrite twenty_length; lia).
      replace (length x - 20 * i - 20) with (length x - 20 * S i) by lia. rewrite IH by (try exact W; lia).
      assert (E : twenty y = firstn 20 y).
      { unfold twenty. rewrite firstn_app. replace (20 - length y) with 0 by lia. rewrite firstn_O, app_nil_r. apply map_mod_wf, wf_firstn, Wy. }
      rewrite E. unfold y. replace (20 * S i) with (20 * i + 20) by lia. rewrite <- skipn_skipn_add. apply firstn_skipn.
Qed.

(** An HMAC with given values for special messages and given outputs of the PRF for all others *)
Definition made_hmac (special : bytes -> bytes -> option bytes) (want : bytes -> bytes -> bytes) (key m : bytes) : bytes :=
  match special key m with
  | Some b => twenty b
  | None => twenty (skipn (20 * N.to_nat (last m 0%N)) (want key (removelast m)))
  end.
Lemma made_hmac_sha1 special want : hmac_sha1 (made_hmac special want).
Proof. split; intros; unfold made_hmac; destruct (special key m); (apply twenty_length || apply twenty_wf). Qed.
Lemma made_stream special want key label data n blocks :
  (forall i, special key (label ++ [0]%N ++ data ++ [i]) = None) ->
  byte_array n (want key (label ++ [0]%N ++ data)) -> n <= 20 * blocks ->
  firstn n (prf_stream (made_hmac special want) key label data blocks) = want key (label ++ [0]%N ++ data).
Proof.
  intros S [L W] B. unfold prf_stream.
  rewrite (map_ext_in _ (fun j => twenty (skipn (20 * j) (want key (label ++ [0]%N ++ data)))))
    by (intros i _; unfold prf_block, made_hmac; rewrite S; replace (label ++ [0]%N ++ data ++ [N.of_nat i]) with ((label ++ [0]%N ++ data) ++ [N.of_nat i]) by (now rewrite <- !app_assoc);
        now rewrite last_last, removelast_last, Nat2N.id).
  pose proof (blocks_front blocks (want key (label ++ [0]%N ++ data)) 0 W) as H. rewrite Nat.mul_0_r, Nat.sub_0_r, L in H. apply H. lia.
Qed.

(** ** PTKs and PMKIDs *)
Definition ptk_of (ptk : Session -> bytes) (key p : bytes) : bytes :=
  let b := skipn 23 p in
  ptk (mkSession key (firstn 6 b) (firstn 6 (skipn 6 b)) (firstn 32 (skipn 12 b)) (skipn 44 b)).
Definition pmkid_of (pmkid : bytes -> bytes -> bytes -> bytes) (key m : bytes) : option bytes :=
  if length m =? 20 then Some (pmkid key (firstn 6 (skipn 8 m)) (skipn 14 m)) else None.
Lemma ptk_of_spec ptk key a b c d : length a = 6 -> length b = 6 -> length c = 32 ->
  ptk_of ptk key (pairwise_key_expansion ++ [0]%N ++ a ++ b ++ c ++ d) = ptk (mkSession key a b c d).
Proof.
  intros A B C. unfold ptk_of. rewrite app_assoc.
  rewrite (skipn_app_exact (pairwise_key_expansion ++ [0]%N)) by reflexivity.
  rewrite (firstn_app_exact a) by (symmetry; exact A).
  rewrite (skipn_app_exact a _ 6) by (symmetry; exact A). rewrite (firstn_app_exact b) by (symmetry; exact B).
  replace (skipn 12 (a ++ b ++ c ++ d)) with (c ++ d) by (rewrite app_assoc; symmetry; apply skipn_app_exact; rewrite app_length; lia).
  replace (skipn 44 (a ++ b ++ c ++ d)) with d by (rewrite !app_assoc; symmetry; apply skipn_app_exact; rewrite !app_length; lia).
  rewrite (firstn_app_exact c) by (symmetry; exact C). reflexivity.
Qed.
Lemma min_max_same a b lo hi : min_max a b lo hi -> same_pair lo hi a b.
Proof. intros (_ & H). exact H. Qed.
Lemma min_max_len a b lo hi n : min_max a b lo hi -> length a = n -> length b = n -> length lo = n /\ length hi = n.
Proof. intros (_ & [[-> ->]|[-> ->]]); auto. Qed.

Lemma independent n (ptk : Session -> bytes) (pmkid : bytes -> bytes -> bytes -> bytes) : n <= 20 * 256 ->
  (forall s s', same_session s s' -> ptk s = ptk s') -> (forall s, byte_array n (ptk s)) -> (forall key aa spa, byte_array 16 (pmkid key aa spa)) ->
  exists hmac, hmac_sha1 hmac /\
    (forall s, ok_session s -> derive_ptk hmac (ss_pmk s) (ss_aa s) (ss_spa s) (ss_anonce s) (ss_snonce s) n = ptk s) /\
    (forall key aa spa, length aa = 6 -> length spa = 6 -> @generate_pmkid unit hmac key aa spa = Ok (pmkid key aa spa)).
Proof.
  intros B R K P. exists (made_hmac (pmkid_of pmkid) (ptk_of ptk)). split; [apply made_hmac_sha1|]. split.
  - intros [key aa spa an sn] (Wa & La & Ws & Ls & Wan & Lan & Wsn & Lsn). cbn [ss_pmk ss_aa ss_spa ss_anonce ss_snonce] in *.
    destruct (derive_ptk_spec (made_hmac (pmkid_of pmkid) (ptk_of ptk)) key aa spa an sn n 256 (made_hmac_sha1 _ _) Wa Ws La Ls Wan Wsn Lan Lsn B (le_n _))
      as (alo & ahi & nlo & nhi & MA & MN & ->).
    destruct (min_max_len _ _ _ _ 6 MA La Ls) as [L1 L2]. destruct (min_max_len _ _ _ _ 32 MN Lan Lsn) as [L3 L4].
    rewrite (made_stream _ _ _ _ _ n).
    + rewrite ptk_of_spec by assumption. apply R. split; [reflexivity|]. split; apply min_max_same; assumption.
    + intros i. unfold pmkid_of. rewrite !app_length, L1, L2, L3, L4. reflexivity.
    + rewrite ptk_of_spec by assumption. apply K.
    + exact B.
  - intros key aa spa La Ls. rewrite pmkid_spec by apply made_hmac_sha1. f_equal. unfold made_hmac, pmkid_of.
    rewrite !app_length, La, Ls. change (length pmk_name + (6 + 6) =? 20) with true. cbv iota.
    rewrite (skipn_app_exact pmk_name _ 8) by reflexivity. rewrite (firstn_app_exact aa) by (symmetry; exact La).
    rewrite (app_assoc pmk_name). rewrite (skipn_app_exact (pmk_name ++ aa) _ 14) by (rewrite app_length, La; reflexivity).
    destruct (P key aa spa) as [L W]. pose proof (twenty_front _ W) as E. rewrite L in E. rewrite E. apply firstn_all2. lia.
Qed.

(** ** The parts of a PTK *)
Lemma independent_keys akm cipher kl el tl (kck kek tk : Session -> bytes) :
  kck_len akm = Some kl -> kek_len akm = Some el -> tk_len cipher = Some tl -> kl + el + tl <= 20 * 256 ->
  (forall s s', same_session s s' -> kck s = kck s' /\ kek s = kek s' /\ tk s = tk s') ->
  (forall s, byte_array kl (kck s) /\ byte_array el (kek s) /\ byte_array tl (tk s)) ->
  exists hmac, hmac_sha1 hmac /\ forall s, ok_session s ->
    partition_ptk (derive_ptk hmac (ss_pmk s) (ss_aa s) (ss_spa s) (ss_anonce s) (ss_snonce s) (kl + el + tl)) akm cipher = Some (kck s, kek s, tk s).
Proof.
  intros KL EL TL B R K.
  destruct (independent (kl + el + tl) (fun s => kck s ++ kek s ++ tk s) (fun _ _ _ => repeat 0%N 16) B) as (hmac & HM & P & _).
  - intros s s' S. destruct (R _ _ S) as (-> & -> & ->). reflexivity.
  - intros s. destruct (K s) as ([L1 W1] & [L2 W2] & [L3 W3]). split; [rewrite !app_length; lia|].
    apply wf_bytes_app; split; [exact W1|]. apply wf_bytes_app; auto.
  - intros. split; [apply repeat_length|]. apply Forall_forall. intros b I. apply repeat_spec in I. subst. lia.
  - exists hmac. split; [exact HM|]. intros s O. rewrite (P s O). apply partition_some.
    destruct (K s) as ([L1 W1] & [L2 W2] & [L3 W3]). rewrite L1, L2, L3. repeat (split; [assumption|]). exists []. now rewrite app_nil_r.
Qed.

(** ** Same keys under every HMAC *)
Definition beq (a b : bytes) : bool := if list_eq_dec N.eq_dec a b then true else false.
Lemma beq_spec a b : beq a b = true <-> a = b.
Proof. unfold beq. destruct (list_eq_dec N.eq_dec a b); split; congruence. Qed.
Definition same_pairb (a b a' b' : bytes) : bool := (beq a a' && beq b b') || (beq a b' && beq b a').
Lemma same_pairb_spec a b a' b' : same_pairb a b a' b' = true <-> same_pair a b a' b'.
Proof. unfold same_pairb, same_pair. rewrite orb_true_iff, !andb_true_iff, !beq_spec. reflexivity. Qed.
Definition same_sessionb (s s' : Session) : bool :=
  beq (ss_pmk s) (ss_pmk s') && same_pairb (ss_aa s) (ss_spa s) (ss_aa s') (ss_spa s') && same_pairb (ss_anonce s) (ss_snonce s) (ss_anonce s') (ss_snonce s').
Lemma same_sessionb_spec s s' : same_sessionb s s' = true <-> same_session s s'.
Proof. unfold same_sessionb, same_session. rewrite !andb_true_iff, beq_spec, !same_pairb_spec. tauto. Qed.
Lemma same_pair_sym a b a' b' : same_pair a b a' b' -> same_pair a' b' a b.
Proof. intros [[-> ->]|[-> ->]]; [left|right]; auto. Qed.
Lemma same_pair_trans a b a' b' a'' b'' : same_pair a b a' b' -> same_pair a' b' a'' b'' -> same_pair a b a'' b''.
Proof. intros [[-> ->]|[-> ->]] [[-> ->]|[-> ->]]; (now left; split) || (now right; split). Qed.
Lemma same_session_sym s s' : same_session s s' -> same_session s' s.
Proof. intros (A & B & C). split; [auto|]. split; apply same_pair_sym; assumption. Qed.
Lemma same_session_trans s s' s'' : same_session s s' -> same_session s' s'' -> same_session s s''.
Proof. intros (A & B & C) (A' & B' & C'). split; [congruence|]. split; eapply same_pair_trans; eassumption. Qed.
Lemma same_sessionb_ext s s' t : same_session s s' -> same_sessionb s t = same_sessionb s' t.
Proof.
  intros S. apply Bool.eq_iff_eq_true. rewrite !same_sessionb_spec. split; intros H.
  - eapply same_session_trans; [apply same_session_sym, S|exact H].
  - eapply same_session_trans; [exact S|exact H].
Qed.
Lemma same_ptk_iff n s s' : 0 < n -> ok_session s -> ok_session s' ->
  (forall hmac, hmac_sha1 hmac ->
     derive_ptk hmac (ss_pmk s) (ss_aa s) (ss_spa s) (ss_anonce s) (ss_snonce s) n =
     derive_ptk hmac (ss_pmk s') (ss_aa s') (ss_spa s') (ss_anonce s') (ss_snonce s') n) <-> same_session s s'.
Proof.
  intros Pos O O'. split.
  - intros H.
    destruct (independent 1 (fun t => if same_sessionb t s then [1]%N else [0]%N) (fun _ _ _ => repeat 0%N 16)) as (hmac & HM & P & _).
    + lia.
    + intros t t' S. now rewrite (same_sessionb_ext _ _ _ S).
    + intros t. destruct (same_sessionb t s); split; try reflexivity; repeat constructor.
    + intros. split; [apply repeat_length|]. apply Forall_forall. intros b I. apply repeat_spec in I. subst. lia.
    + pose proof (P s O) as E. pose proof (P s' O') as E'. specialize (H hmac HM).
      assert (D : forall t, derive_ptk hmac (ss_pmk t) (ss_aa t) (ss_spa t) (ss_anonce t) (ss_snonce t) 1 =
                            firstn 1 (derive_ptk hmac (ss_pmk t) (ss_aa t) (ss_spa t) (ss_anonce t) (ss_snonce t) n)).
      { intros t. unfold derive_ptk. destruct (sort_lexicographically (ss_aa t) (ss_spa t)), (sort_lexicographically (ss_anonce t) (ss_snonce t)).
        apply prf_iter_prefix; [exact HM|lia]. }
      rewrite D in E, E'. rewrite <- H, E in E'.
      assert (S : same_sessionb s s = true).
      { apply same_sessionb_spec. split; [reflexivity|]. split; left; split; reflexivity. }
      rewrite S in E'. destruct (same_sessionb s' s) eqn:Q; [|discriminate]. apply same_session_sym, same_sessionb_spec, Q.
  - intros (-> & A & N) hmac _.
    destruct A as [[-> ->]|[-> ->]], N as [[-> ->]|[-> ->]];
      [reflexivity|apply derive_ptk_sym_nonces|apply derive_ptk_sym_addresses|apply derive_ptk_sym].
Qed.

Lemma app_same_length (a b c d : bytes) : a ++ b = c ++ d -> length a = length c -> a = c /\ b = d.
Proof.
  revert c. induction a as [|x a IH]; intros [|y c] E L; try discriminate; [now split|].
  injection E as -> E. destruct (IH c E) as [-> ->]; [now injection L|]. now split.
Qed.
(** If two sessions share a key in spite of being different, two different messages have the same HMAC (in front). *)
Lemma same_ptk_collision hmac n s s' : hmac_sha1 hmac -> ok_session s -> ok_session s' ->
  firstn n (derive_ptk hmac (ss_pmk s) (ss_aa s) (ss_spa s) (ss_anonce s) (ss_snonce s) 20) =
  firstn n (derive_ptk hmac (ss_pmk s') (ss_aa s') (ss_spa s') (ss_anonce s') (ss_snonce s') 20) ->
  same_session s s' \/
  exists alo ahi nlo nhi alo' ahi' nlo' nhi',
    min_max (ss_aa s) (ss_spa s) alo ahi /\ min_max (ss_anonce s) (ss_snonce s) nlo nhi /\
    min_max (ss_aa s') (ss_spa s') alo' ahi' /\ min_max (ss_anonce s') (ss_snonce s') nlo' nhi' /\
    let m := pairwise_key_expansion ++ [0]%N ++ alo ++ ahi ++ nlo ++ nhi ++ [0]%N in
    let m' := pairwise_key_expansion ++ [0]%N ++ alo' ++ ahi' ++ nlo' ++ nhi' ++ [0]%N in
    (ss_pmk s, m) <> (ss_pmk s', m') /\ firstn n (hmac (ss_pmk s) m) = firstn n (hmac (ss_pmk s') m').
Proof.
  intros HM O O' E. destruct (same_sessionb s s') eqn:S; [left; apply same_sessionb_spec, S|]. right.
  assert (NS : ~ same_session s s') by (intros H; apply same_sessionb_spec in H; congruence). clear S.
  destruct s as [k aa spa an sn], s' as [k' aa' spa' an' sn']. cbn [ss_pmk ss_aa ss_spa ss_anonce ss_snonce] in *.
  destruct O as (Wa & La & Ws & Ls & Wan & Lan & Wsn & Lsn), O' as (Wa' & La' & Ws' & Ls' & Wan' & Lan' & Wsn' & Lsn').
  cbn [ss_pmk ss_aa ss_spa ss_anonce ss_snonce] in *.
  destruct (derive_ptk_spec hmac k aa spa an sn 20 1 HM Wa Ws La Ls Wan Wsn Lan Lsn ltac:(lia) ltac:(lia)) as (alo & ahi & nlo & nhi & MA & MN & D).
  destruct (derive_ptk_spec hmac k' aa' spa' an' sn' 20 1 HM Wa' Ws' La' Ls' Wan' Wsn' Lan' Lsn' ltac:(lia) ltac:(lia)) as (alo' & ahi' & nlo' & nhi' & MA' & MN' & D').
  exists alo, ahi, nlo, nhi, alo', ahi', nlo', nhi'. repeat (split; [assumption|]). cbv zeta. split.
  - intros X. injection X as -> X. apply NS.
    destruct (min_max_len _ _ _ _ 6 MA La Ls) as [L1 L2]. destruct (min_max_len _ _ _ _ 32 MN Lan Lsn) as [L3 L4].
    destruct (min_max_len _ _ _ _ 6 MA' La' Ls') as [L1' L2']. destruct (min_max_len _ _ _ _ 32 MN' Lan' Lsn') as [L3' L4'].
    apply app_same_length in X as [-> X]; [|congruence]. apply app_same_length in X as [-> X]; [|congruence].
    apply app_same_length in X as [-> X]; [|congruence]. apply app_same_length in X as [-> _]; [|congruence].
    split; [reflexivity|]. split; (eapply same_pair_trans; [apply same_pair_sym, min_max_same; eassumption|apply min_max_same; assumption]).
  - rewrite D, D' in E. unfold prf_stream in E. cbn [seq map concat] in E. rewrite !app_nil_r in E. unfold prf_block in E. change (N.of_nat 0) with 0%N in E.
    rewrite <- !app_assoc in E. rewrite !(firstn_all2 (n := 20)) in E by (rewrite (hmac_length _ HM); lia). exact E.
Qed.

(** ** The PRF *)
Fixpoint split_zero (m : bytes) : bytes * bytes :=
  match m with
  | [] => ([], [])
  | b :: m' => if (b =? 0)%N then ([], m') else let '(l, d) := split_zero m' in (b :: l, d)
  end.
Lemma split_zero_spec l d : ~ In 0%N l -> split_zero (l ++ [0]%N ++ d) = (l, d).
Proof.
  induction l as [|b l IH]; intros H; [reflexivity|]. cbn [app split_zero].
  destruct (N.eqb_spec b 0) as [->|_]; [exfalso; apply H; now left|]. cbn [app] in IH. rewrite IH by (intros I; apply H; now right). reflexivity.
Qed.
Definition label_of (l : bytes) : String.string := String.string_of_list_ascii (map ascii_of_N l).
Lemma label_of_bytes label : label_of (label_bytes label) = label.
Proof.
  unfold label_of, label_bytes. rewrite map_map.
  rewrite (map_ext _ (fun x => x)) by apply ascii_N_embedding. rewrite map_id. apply String.string_of_list_ascii_of_string.
Qed.
Lemma plain_label_bytes label : plain_label label -> ~ In 0%N (label_bytes label).
Proof.
  intros P I. apply P. unfold label_bytes in I. apply in_map_iff in I as (a & E & I).
  replace zero with a; [exact I|]. rewrite <- (ascii_N_embedding a), E. reflexivity.
Qed.
Definition prf_want (want : bytes -> String.string -> bytes -> bytes) (key p : bytes) : bytes :=
  let '(l, d) := split_zero p in want key (label_of l) d.
Lemma prf_independent n (want : bytes -> String.string -> bytes -> bytes) : n <= 20 * 256 -> (forall key label data, byte_array n (want key label data)) ->
  exists hmac, hmac_sha1 hmac /\ forall key label data, plain_label label -> prf_iter hmac key label data n = want key label (concat data).
Proof.
  intros B K. exists (made_hmac (fun _ _ => None) (prf_want want)). split; [apply made_hmac_sha1|]. intros key label data P.
  rewrite (prf_iter_std _ _ _ _ _ 256 (made_hmac_sha1 _ _) B (le_n _)).
  assert (E : prf_want want key (label_bytes label ++ [0]%N ++ concat data) = want key label (concat data)).
  { unfold prf_want. rewrite split_zero_spec by (apply plain_label_bytes, P). now rewrite label_of_bytes. }
  rewrite (made_stream _ _ _ _ _ n); [exact E|reflexivity|rewrite E; apply K|exact B].
Qed.
Lemma same_prf_iff n key label data key' label' data' : 0 < n -> plain_label label -> plain_label label' ->
  (forall hmac, hmac_sha1 hmac -> prf_iter hmac key label data n = prf_iter hmac key' label' data' n) <->
  key = key' /\ label = label' /\ concat data = concat data'.
Proof.
  intros Pos P P'. split.
  - intros H.
    destruct (prf_independent 1 (fun k l d => if beq k key && String.eqb l label && beq d (concat data) then [1]%N else [0]%N)) as (hmac & HM & Q).
    + lia.
    + intros k l d. destruct (_ && _); split; try reflexivity; repeat constructor.
    + specialize (H hmac HM). apply (f_equal (firstn 1)) in H. rewrite <- !prf_iter_prefix in H by (try exact HM; lia).
      rewrite !Q in H by assumption.
      rewrite (proj2 (beq_spec key key) eq_refl), String.eqb_refl, (proj2 (beq_spec (concat data) (concat data)) eq_refl) in H. cbn [andb] in H.
      destruct (beq key' key && String.eqb label' label && beq (concat data') (concat data)) eqn:E; [|discriminate].
      apply andb_true_iff in E as [E D]. apply andb_true_iff in E as [E L]. apply beq_spec in E, D. apply String.eqb_eq in L. auto.
  - intros (-> & -> & E) hmac _. now apply prf_chunked.
Qed.
Lemma prf_zero_label : let zero_label := String.String "a" (String.String zero (String.String "b" String.EmptyString)) in
  ("a"%string, [98; 0; 99]%N) <> (zero_label, [99]%N) /\
  forall hmac key n, prf hmac key "a" [98; 0; 99]%N n = prf hmac key zero_label [99]%N n.
Proof. split; [discriminate|]. intros. reflexivity. Qed.
