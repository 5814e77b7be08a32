(** Facts about PRF, PTK and PMKID. *)
From Verif Require Import Base SpecBase BaseFacts Bits Layouts Suites Rsn Eapol KeyMgmt SpecEapol SpecKeyMgmt.

Lemma label_pmk_name : label_bytes "PMK Name"%string = pmk_name. Proof. reflexivity. Qed.
Lemma label_expansion : label_bytes "Pairwise key expansion"%string = pairwise_key_expansion. Proof. reflexivity. Qed.

(** ** PRF *)
Section Prf.
Variable hmac : bytes -> bytes -> bytes.
Hypothesis HM : hmac_sha1 hmac.
Variables key prefix : bytes.
Let block i := hmac key (prefix ++ [N.of_nat i mod 256]%N).
Lemma block_length i : length (block i) = 20. Proof. apply (hmac_length _ HM). Qed.
Lemma stream_length i n : length (concat (map block (seq i n))) = 20 * n.
Proof. revert i; induction n; intros i; [reflexivity|]. cbn [seq map concat]. rewrite app_length, block_length, IHn. lia. Qed.
Lemma prf_chunks_spec fuel len blocks : len <= fuel -> len <= 20 * blocks -> forall i,
  prf_chunks hmac key prefix i (chunk_lengths fuel 20 len) = firstn len (concat (map block (seq i blocks))).
Proof.
  revert len blocks. induction fuel as [|fuel IH]; intros len blocks F B i.
  - assert (len = 0) by lia. subst. reflexivity.
  - cbn [chunk_lengths]. destruct (Nat.eqb_spec len 0) as [->|Z]; [reflexivity|].
    destruct blocks as [|blocks]; [lia|]. cbn [seq map concat].
    destruct (Nat.leb_spec len 20) as [L|L].
    + cbn [prf_chunks]. fold (block i). rewrite firstn_app, block_length. replace (len - 20) with 0 by lia. cbn [firstn]. rewrite !app_nil_r.
      destruct (Nat.eqb_spec len 20) as [->|]; [|reflexivity]. rewrite firstn_all2; [reflexivity|]. rewrite block_length. lia.
    + cbn [prf_chunks]. fold (block i). cbn [Nat.eqb]. rewrite (IH (len - 20) blocks) by lia.
      rewrite firstn_app, block_length. rewrite (firstn_all2 (block i)) by (rewrite block_length; lia). reflexivity.
Qed.
End Prf.
Lemma prf_iter_spec hmac key label data n blocks : hmac_sha1 hmac -> n <= 20 * blocks ->
  prf_iter hmac key label data n =
  firstn n (concat (map (fun i => prf_block hmac key (label_bytes label) (concat data) (N.of_nat i mod 256)) (seq 0 blocks))).
Proof.
  intros HM B. unfold prf_iter. rewrite (prf_chunks_spec hmac HM _ _ n n blocks) by lia. do 2 f_equal. apply map_ext. intros i.
  unfold prf_block. now rewrite <- !app_assoc.
Qed.
Lemma prf_iter_std hmac key label data n blocks : hmac_sha1 hmac -> n <= 20 * blocks -> blocks <= 256 ->
  prf_iter hmac key label data n = firstn n (prf_stream hmac key (label_bytes label) (concat data) blocks).
Proof.
  intros HM B L. rewrite (prf_iter_spec _ _ _ _ _ blocks HM B). unfold prf_stream. do 2 f_equal. apply map_ext_in. intros i I. apply in_seq in I.
  rewrite N.mod_small by lia. reflexivity.
Qed.
Lemma concat_blocks_length hmac key label data f l : hmac_sha1 hmac -> length (concat (map (fun i : nat => prf_block hmac key label data (f i)) l)) = 20 * length l.
Proof. intros HM. induction l; [reflexivity|]. cbn [map concat length]. rewrite app_length, IHl. unfold prf_block. rewrite (hmac_length _ HM). lia. Qed.
Lemma prf_iter_length hmac key label data n : hmac_sha1 hmac -> length (prf_iter hmac key label data n) = n.
Proof. intros HM. rewrite (prf_iter_spec _ _ _ _ _ n HM) by lia. rewrite firstn_length, concat_blocks_length, seq_length by exact HM. lia. Qed.
Lemma prf_iter_prefix hmac key label data m n : hmac_sha1 hmac -> m <= n ->
  prf_iter hmac key label data m = firstn m (prf_iter hmac key label data n).
Proof. intros HM L. rewrite !(prf_iter_spec _ _ _ _ _ n HM) by lia. rewrite firstn_firstn. f_equal. lia. Qed.
Lemma prf_one hmac key label data n : prf hmac key label data n = prf_iter hmac key label [data] n.
Proof. reflexivity. Qed.
Lemma prf_chunked hmac key label data data' n : concat data = concat data' -> prf_iter hmac key label data n = prf_iter hmac key label data' n.
Proof. unfold prf_iter. now intros ->. Qed.
(** behind 256 blocks the output starts again *)
Lemma prf_iter_repeats hmac key label data n : hmac_sha1 hmac ->
  skipn (20 * 256) (prf_iter hmac key label data (20 * 256 + n)) = prf_iter hmac key label data n.
Proof.
  intros HM. rewrite (prf_iter_spec _ _ _ _ (20 * 256 + n) (256 + n) HM) by lia. rewrite (prf_iter_spec _ _ _ _ n n HM) by lia.
  rewrite seq_app, map_app, concat_app. rewrite firstn_app. rewrite concat_blocks_length, seq_length by exact HM.
  rewrite skipn_app, firstn_length, concat_blocks_length, seq_length by exact HM.
  rewrite (skipn_all2 (firstn _ _)) by (rewrite firstn_length, concat_blocks_length, seq_length by exact HM; lia).
  replace (20 * 256 - Nat.min (20 * 256 + n) (20 * 256)) with 0 by lia. replace (20 * 256 + n - 20 * 256) with n by lia. cbn [app skipn].
  f_equal. f_equal. rewrite <- (Nat.add_0_r (0 + 256)). 
  assert (E : forall s l, map (fun i => prf_block hmac key (label_bytes label) (concat data) (N.of_nat i mod 256)) (seq (256 + s) l) =
                          map (fun i => prf_block hmac key (label_bytes label) (concat data) (N.of_nat i mod 256)) (seq s l)).
  { intros s l. revert s. induction l as [|l IH]; intros s; [reflexivity|]. cbn [seq map]. f_equal; [f_equal; lia|].
    change (S (256 + s)) with (256 + S s). apply IH. }
  apply E.
Qed.
Lemma pmkid_spec hmac key aa spa : hmac_sha1 hmac ->
  @generate_pmkid unit hmac key aa spa = Ok (firstn 16 (hmac key (pmk_name ++ aa ++ spa))).
Proof. intros HM. unfold generate_pmkid. rewrite label_pmk_name. apply slice_to_ok. rewrite (hmac_length _ HM). lia. Qed.

(** ** PTK *)
Lemma iter_cmp_antisym a b : iter_cmp b a = CompOpp (iter_cmp a b).
Proof.
  revert b. induction a as [|x a IH]; intros [|y b]; try reflexivity. cbn [iter_cmp]. rewrite (N.compare_antisym x y).
  destruct (x ?= y)%N; cbn [CompOpp]; try reflexivity. apply IH.
Qed.
Lemma iter_cmp_eq a b : iter_cmp a b = Eq -> a = b.
Proof.
  revert b. induction a as [|x a IH]; intros [|y b] E; try discriminate; [reflexivity|]. cbn [iter_cmp] in E.
  destruct (N.compare_spec x y); try discriminate. f_equal; auto.
Qed.
Lemma sort_sym a b : sort_lexicographically a b = sort_lexicographically b a.
Proof.
  unfold sort_lexicographically. rewrite (iter_cmp_antisym a b). destruct (iter_cmp a b) eqn:E; cbn [CompOpp]; try reflexivity.
  apply iter_cmp_eq in E. now subst.
Qed.
Lemma be_val_snoc a x : be_val (a ++ [x]) = (be_val a * 256 + x)%N.
Proof. unfold be_val. rewrite rev_app_distr. cbn [rev app le_val]. lia. Qed.
Lemma be_val_app a b : be_val (a ++ b) = (be_val a * 256 ^ N.of_nat (length b) + be_val b)%N.
Proof.
  revert a. induction b as [|x b IH]; intros a.
  - rewrite app_nil_r. cbn. lia.
  - replace (a ++ x :: b) with ((a ++ [x]) ++ b) by (now rewrite <- app_assoc). rewrite IH, be_val_snoc.
    change (x :: b) with ([x] ++ b). rewrite (IH [x]), app_length. change (length [x] + length b) with (S (length b)). rewrite pow256_succ.
    replace (be_val [x]) with x by (unfold be_val; cbn [rev le_val app]; lia). lia.
Qed.
Lemma iter_cmp_val a b : wf_bytes a -> wf_bytes b -> length a = length b -> iter_cmp a b = (be_val a ?= be_val b)%N.
Proof.
  revert b. induction a as [|x a IH]; intros [|y b] Wa Wb L; try discriminate; [reflexivity|].
  apply wf_bytes_cons in Wa as [Hx Wa]. apply wf_bytes_cons in Wb as [Hy Wb]. injection L as L. cbn [iter_cmp].
  rewrite (IH b Wa Wb L). change (x :: a) with ([x] ++ a). change (y :: b) with ([y] ++ b). rewrite !be_val_app, <- L.
  pose proof (be_val_bound a Wa) as Ba. pose proof (be_val_bound b Wb) as Bb. rewrite <- L in Bb.
  set (p := (256 ^ N.of_nat (length a))%N) in *. clearbody p. set (u := be_val a) in *. set (v := be_val b) in *. clearbody u v.
  replace (be_val [x]) with x by (unfold be_val; cbn [rev le_val app]; lia). replace (be_val [y]) with y by (unfold be_val; cbn [rev le_val app]; lia).
  destruct (N.compare_spec x y) as [E|E|E].
  - subst. destruct (N.compare_spec u v) as [F|F|F]; symmetry; [apply N.compare_eq_iff|apply N.compare_lt_iff|apply N.compare_gt_iff]; lia.
  - symmetry. apply N.compare_lt_iff. nia.
  - symmetry. apply N.compare_gt_iff. nia.
Qed.
Lemma sort_spec a b : wf_bytes a -> wf_bytes b -> length a = length b ->
  let '(lo, hi) := sort_lexicographically a b in min_max a b lo hi.
Proof.
  intros Wa Wb L. unfold sort_lexicographically. rewrite iter_cmp_val by assumption. unfold min_max.
  destruct (N.compare_spec (be_val a) (be_val b)); split; auto; lia.
Qed.
Lemma derive_ptk_sym_addresses hmac pmk aa spa an sn n : derive_ptk hmac pmk aa spa an sn n = derive_ptk hmac pmk spa aa an sn n.
Proof. unfold derive_ptk. now rewrite (sort_sym aa spa). Qed.
Lemma derive_ptk_sym_nonces hmac pmk aa spa an sn n : derive_ptk hmac pmk aa spa an sn n = derive_ptk hmac pmk aa spa sn an n.
Proof. unfold derive_ptk. now rewrite (sort_sym an sn). Qed.
Lemma derive_ptk_sym hmac pmk aa spa an sn n : derive_ptk hmac pmk aa spa an sn n = derive_ptk hmac pmk spa aa sn an n.
Proof. now rewrite derive_ptk_sym_addresses, derive_ptk_sym_nonces. Qed.
Lemma derive_ptk_spec hmac pmk aa spa an sn n blocks : hmac_sha1 hmac ->
  wf_bytes aa -> wf_bytes spa -> length aa = 6 -> length spa = 6 -> wf_bytes an -> wf_bytes sn -> length an = 32 -> length sn = 32 ->
  n <= 20 * blocks -> blocks <= 256 ->
  exists a_lo a_hi n_lo n_hi, min_max aa spa a_lo a_hi /\ min_max an sn n_lo n_hi /\
    derive_ptk hmac pmk aa spa an sn n = firstn n (prf_stream hmac pmk pairwise_key_expansion (a_lo ++ a_hi ++ n_lo ++ n_hi) blocks).
Proof.
  intros HM Wa Ws La Ls Wan Wsn Lan Lsn B L.
  pose proof (sort_spec aa spa Wa Ws (eq_trans La (eq_sym Ls))) as A. pose proof (sort_spec an sn Wan Wsn (eq_trans Lan (eq_sym Lsn))) as NN.
  unfold derive_ptk. destruct (sort_lexicographically aa spa) as [a_lo a_hi]. destruct (sort_lexicographically an sn) as [n_lo n_hi].
  exists a_lo, a_hi, n_lo, n_hi. split; [exact A|]. split; [exact NN|].
  rewrite (prf_iter_std _ _ _ _ _ blocks HM B L), label_expansion. cbn [concat]. now rewrite app_nil_r.
Qed.

(** ** Partition *)
Lemma partition_some ptk akm cipher kck kek tk : partition_ptk ptk akm cipher = Some (kck, kek, tk) <->
  kck_len akm = Some (length kck) /\ kek_len akm = Some (length kek) /\ tk_len cipher = Some (length tk) /\
  exists rest, ptk = kck ++ kek ++ tk ++ rest.
Proof.
  unfold partition_ptk, split_at_checked. split.
  - destruct (kck_len akm) as [a|]; [|discriminate]. destruct (kek_len akm) as [b|]; [|discriminate]. destruct (tk_len cipher) as [c|]; [|discriminate].
    destruct (Nat.leb_spec a (length ptk)) as [A|]; [|discriminate]. destruct (Nat.leb_spec b (length (skipn a ptk))) as [B|]; [|discriminate].
    destruct (Nat.leb_spec c (length (skipn b (skipn a ptk)))) as [C|]; [|discriminate]. intros E. injection E as <- <- <-.
    rewrite !firstn_length. rewrite !Nat.min_l by assumption. do 3 (split; [reflexivity|]).
    exists (skipn c (skipn b (skipn a ptk))). now rewrite !firstn_skipn.
  - intros (-> & -> & -> & rest & ->). rewrite firstn_app_exact, skipn_app_exact by reflexivity.
    destruct (Nat.leb_spec (length kck) (length (kck ++ kek ++ tk ++ rest))) as [_|X]; [|rewrite app_length in X; lia].
    rewrite firstn_app_exact, skipn_app_exact by reflexivity.
    destruct (Nat.leb_spec (length kek) (length (kek ++ tk ++ rest))) as [_|X]; [|rewrite app_length in X; lia].
    rewrite firstn_app_exact by reflexivity.
    destruct (Nat.leb_spec (length tk) (length (tk ++ rest))) as [_|X]; [|rewrite app_length in X; lia]. reflexivity.
Qed.
Lemma partition_none ptk akm cipher : partition_ptk ptk akm cipher = None <->
  kck_len akm = None \/ kek_len akm = None \/ tk_len cipher = None \/
  exists a b c, kck_len akm = Some a /\ kek_len akm = Some b /\ tk_len cipher = Some c /\ length ptk < a + b + c.
Proof.
  unfold partition_ptk, split_at_checked.
  destruct (kck_len akm) as [a|]; [|tauto]. destruct (kek_len akm) as [b|]; [|tauto]. destruct (tk_len cipher) as [c|]; [|tauto].
  assert (X : (Some a = None \/ Some b = None \/ Some c = None \/
    exists a' b' c', Some a = Some a' /\ Some b = Some b' /\ Some c = Some c' /\ length ptk < a' + b' + c') <-> length ptk < a + b + c).
  { split; [|intros; right; right; right; exists a, b, c; auto].
    intros [|[|[|(a' & b' & c' & E1 & E2 & E3 & L)]]]; try discriminate. injection E1 as ->. injection E2 as ->. injection E3 as ->. exact L. }
  rewrite X. clear X.
  destruct (Nat.leb_spec a (length ptk)); [|split; [lia|reflexivity]]. rewrite skipn_length.
  destruct (Nat.leb_spec b (length ptk - a)); [|split; [lia|reflexivity]]. rewrite !skipn_length.
  destruct (Nat.leb_spec c (length ptk - a - b)); split; try discriminate; try lia; reflexivity.
Qed.
