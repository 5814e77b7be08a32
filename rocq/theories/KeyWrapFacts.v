(** The stand-alone key wrap and the mapping of passphrases. *)
From Verif Require Import Base SpecBase BaseFacts Suites Rsn Data SpecData Eapol SpecEapol KeyMgmt SpecKeyMgmt Sha1 Aes AesFacts AesPad
  KeyWrap SpecKeyWrap KeyMgmtFacts6.
Local Open Scope N_scope.

(** ** Key wrap with padding *)
Lemma pad8_length p : length (pad8 p) = (8 * blocks_for (length p))%nat.
Proof.
  unfold pad8, blocks_for. rewrite app_length, repeat_length. lia.
Qed.
Lemma pad8_wf p : wf_bytes p -> wf_bytes (pad8 p).
Proof.
  intros W. unfold pad8. apply wf_bytes_app. split; [exact W|]. apply Forall_forall. intros x H. apply repeat_spec in H. subst. reflexivity.
Qed.
Lemma pad_iv_bound n : N.of_nat n < 2 ^ 32 -> pad_iv n < 2 ^ 64.
Proof. unfold pad_iv. change (2 ^ 64) with (2 ^ 32 * 2 ^ 32). intros H. change (2 ^ 32) with 4294967296 in *. lia. Qed.
Lemma pad_iv_differs n : N.of_nat n < 2 ^ 32 -> pad_iv n <> wrap_iv.
Proof. unfold pad_iv, wrap_iv. change (2 ^ 32) with 4294967296. intros H E. lia. Qed.

Section Pad.
Variables enc dec : bytes -> bytes -> bytes.
Hypothesis BC : block_cipher enc dec.

Lemma wrap_pad_length kek p : (0 < length p)%nat -> length (wrap_pad_of enc kek p) = (8 * blocks_for (length p) + 8)%nat.
Proof.
  intros P. unfold wrap_pad_of. destruct (Nat.eqb_spec (blocks_for (length p)) 1) as [E|E].
  - rewrite (bc_enc_length _ _ BC); [lia|]. rewrite app_length, be_bytes_length, pad8_length, E. reflexivity.
  - destruct (blocks8_spec (length (pad8 p)) (pad8 p) (le_n _)) as (_ & F & G & _); [rewrite pad8_length; lia|].
    set (rs0 := blocks8 _ _) in *.
    pose proof (steps_good enc dec BC kek (length rs0) (seq 1 (6 * length rs0)) (pad_iv (length p), rs0) (conj eq_refl F)) as [L' F'].
    destruct (fold_left _ _ _) as [a rs]. cbn [snd] in *. rewrite app_length, be_bytes_length, concat_length8, L' by assumption.
    rewrite pad8_length in G. lia.
Qed.
(** after wrapping, the state is undone to the alternative initial value and the blocks *)
Lemma wrap_pad_state kek p : wf_bytes p -> N.of_nat (length p) < 2 ^ 32 -> (8 < length p)%nat ->
  exists a (rs : list bytes), wrap_pad_of enc kek p = be_bytes 8 a ++ concat rs /\ a < 2 ^ 64 /\ Forall good_block rs /\ Forall wf_bytes rs /\
  length rs = blocks_for (length p) /\
  exists rs0 : list bytes, concat rs0 = pad8 p /\
  fold_left (unwrap_step (dec kek)) (rev (seq 1 (6 * length rs))) (a, rs) = (pad_iv (length p), rs0).
Proof.
  intros W B P. unfold wrap_pad_of. destruct (Nat.eqb_spec (blocks_for (length p)) 1) as [E|E]; [unfold blocks_for in E; lia|].
  destruct (blocks8_spec (length (pad8 p)) (pad8 p) (le_n _)) as (E0 & F & G & Wb); [rewrite pad8_length; lia|].
  specialize (Wb (pad8_wf _ W)). set (rs0 := blocks8 _ _) in *.
  pose proof (steps_good enc dec BC kek (length rs0) (seq 1 (6 * length rs0)) (pad_iv (length p), rs0) (conj eq_refl F)) as [L' F'].
  pose proof (steps_wf enc dec BC kek (seq 1 (6 * length rs0)) (pad_iv (length p), rs0) (conj (pad_iv_bound _ B) Wb)) as [A' W'].
  pose proof (unsteps_steps enc dec BC kek (length rs0) (seq 1 (6 * length rs0)) (pad_iv (length p), rs0) (conj eq_refl F) (conj (pad_iv_bound _ B) Wb)) as U.
  destruct (fold_left (wrap_step _) _ _) as [a rs]. cbn [fst snd] in *. exists a, rs. rewrite pad8_length in G.
  split; [reflexivity|]. split; [exact A'|]. split; [exact F'|]. split; [exact W'|]. split; [transitivity (length rs0); [exact L'|lia]|].
  exists rs0. split; [exact E0|]. rewrite <- L' in U. exact U.
Qed.
Lemma pad_iv_parts n : N.of_nat n < 2 ^ 32 -> pad_iv n / 2 ^ 32 = 0xa65959a6 /\ N.to_nat (pad_iv n mod 2 ^ 32) = n.
Proof.
  intros H. unfold pad_iv. split.
  - rewrite N.add_comm, N.div_add, N.div_small by (try discriminate; exact H). reflexivity.
  - rewrite N.add_comm, N.mod_add, N.mod_small by (try discriminate; exact H). apply Nat2N.id.
Qed.
Lemma padding_zero p : forallb (N.eqb 0) (skipn (length p) (pad8 p)) = true /\ firstn (length p) (pad8 p) = p.
Proof.
  unfold pad8. rewrite skipn_app, firstn_app, firstn_all, skipn_all, Nat.sub_diag, app_nil_r. split; [|reflexivity].
  cbn [app skipn]. apply forallb_forall. intros x H. apply repeat_spec in H. subst. reflexivity.
Qed.
(** what is wrapped is unwrapped *)
Lemma wrap_pad_inverse kek p : wf_bytes p -> (0 < length p)%nat -> N.of_nat (length p) < 2 ^ 32 ->
  unwrap_pad_of dec kek (wrap_pad_of enc kek p) = Some p.
Proof.
  intros W P B. pose proof (wrap_pad_length kek p P) as L. unfold unwrap_pad_of. rewrite L.
  assert (X : ((8 * blocks_for (length p) + 8) mod 8 =? 0)%nat && (16 <=? 8 * blocks_for (length p) + 8)%nat = true).
  { apply andb_true_iff. split; [apply Nat.eqb_eq; lia|apply Nat.leb_le; unfold blocks_for; lia]. }
  rewrite X. clear X. destruct (pad_iv_parts _ B) as [H1 H2]. destruct (padding_zero p) as [Z1 Z2].
  destruct (Nat.eqb_spec (8 * blocks_for (length p) + 8) 16) as [E|E].
  - assert (E1 : blocks_for (length p) = 1%nat) by lia. unfold wrap_pad_of. rewrite E1, Nat.eqb_refl.
    rewrite (bc_inverse _ _ BC).
    + destruct (split8 (be_bytes 8 (pad_iv (length p))) (pad8 p)) as [-> ->]; [apply be_bytes_length|].
      rewrite be_val_bytes_small by exact (pad_iv_bound _ B). rewrite H1, H2, N.eqb_refl, pad8_length, E1, Z1, Z2. reflexivity.
    + rewrite app_length, be_bytes_length, pad8_length, E1. reflexivity.
    + apply wf_bytes_app. split; [apply be_bytes_wf|apply pad8_wf, W].
  - destruct (wrap_pad_state kek p W B) as (a & rs & Ew & A & G & Wr & Lr & rs0 & E0 & U); [unfold blocks_for in E; lia|].
    rewrite Ew. destruct (split8 (be_bytes 8 a) (concat rs)) as [-> ->]; [apply be_bytes_length|].
    rewrite be_val_bytes_small by exact A. rewrite blocks8_concat by (try assumption; rewrite concat_length8 by assumption; lia).
    rewrite U. cbn [fst snd]. rewrite E0, H1, H2, N.eqb_refl, Z1, Z2, pad8_length. cbn [andb].
    replace (8 * blocks_for (length p) / 8)%nat with (blocks_for (length p)) by lia. rewrite Nat.eqb_refl. reflexivity.
Qed.
(** ... but not by the receiver, which expects the initial value of RFC 3394 *)
Lemma wrap_pad_refused kek p : wf_bytes p -> (8 < length p)%nat -> N.of_nat (length p) < 2 ^ 32 ->
  unwrap_of dec kek (wrap_pad_of enc kek p) = None.
Proof.
  intros W P B. destruct (wrap_pad_state kek p W B P) as (a & rs & Ew & A & G & Wr & Lr & rs0 & E0 & U).
  unfold unwrap_of. destruct (_ && _); [|reflexivity]. rewrite Ew.
  destruct (split8 (be_bytes 8 a) (concat rs)) as [-> ->]; [apply be_bytes_length|].
  rewrite be_val_bytes_small by exact A.
  rewrite blocks8_concat by (try assumption; rewrite app_length, concat_length8 by assumption; lia).
  rewrite U. cbn [fst snd]. destruct (N.eqb_spec (pad_iv (length p)) wrap_iv) as [E|E]; [|reflexivity].
  exfalso. exact (pad_iv_differs _ B E).
Qed.
End Pad.

(** ** The function of the crate *)
Lemma wrap_eapol_spec enc dec kek data n : block_cipher enc dec -> (0 < length data)%nat -> N.of_nat (length data) < 2 ^ 32 ->
  exists out, length out = (8 * ((length data + 7) / 8) + 8)%nat /\
  wrap_eapol_key_data (wrap_pad_of enc) kek data n = (if (n =? length out)%nat then Ok out else Err InvalidOutputLength) /\
  (wf_bytes data -> unwrap_pad_of dec kek out = Some data).
Proof.
  intros BC P B. exists (wrap_pad_of enc kek data). pose proof (wrap_pad_length enc dec BC kek data P) as L. unfold blocks_for in L.
  split; [exact L|]. split; [|intros W; apply wrap_pad_inverse; assumption].
  unfold wrap_eapol_key_data. rewrite L. apply N.ltb_lt in B. rewrite B, andb_true_r. reflexivity.
Qed.
Lemma wrap_eapol_refused enc dec kek data n out : block_cipher enc dec -> wf_bytes data -> (8 < length data)%nat ->
  wrap_eapol_key_data (wrap_pad_of enc) kek data n = Ok out -> unwrap_of dec kek out = None.
Proof.
  intros BC W P. unfold wrap_eapol_key_data. destruct (_ && _) eqn:X; [|discriminate]. apply andb_true_iff in X as [_ X].
  apply N.ltb_lt in X. intros [= <-]. now apply wrap_pad_refused.
Qed.
(** A frame with this key data is never accepted. *)
Lemma wrap_eapol_never enc dec {cfg : Cfg} hmac kck kek data n out b temp akm (with_fcs : bool) e m : block_cipher enc dec -> hmac_sha1 hmac ->
  wf_bytes data -> (8 < length data)%nat -> wrap_eapol_key_data (wrap_pad_of enc) kek data n = Ok out ->
  wf_bytes b ->
  let b' := if with_fcs then firstn (length b - 4) b else b in
  eapol_offset b' e -> key_mic_len akm = Some m -> has_encrypted_data (info_at b' e) ->
  between_bytes b' (e + 81 + m + 2) (e + 81 + m + 2 + data_length_at b' e m) = out ->
  forall k, deserialize_eapol hmac (unwrap_of dec) kck (Some kek) b temp akm with_fcs <> Ok k.
Proof.
  intros BC H W P Ew Wb b' Eo M En D k Ek.
  pose proof (wrap_eapol_refused enc dec kek data n out BC W P Ew) as R.
  destruct (accepted hmac (wrap_of enc) (unwrap_of dec) H (wrap_key_wrap _ _ BC) kck (Some kek) b temp akm with_fcs k Wb Ek)
    as (e' & m' & v & res & Eo' & M' & _ & _ & _ & _ & _ & _ & _ & I & _ & K).
  fold b' in Eo', I, K.
  destruct Eo as (s & S & -> & _). destruct Eo' as (s' & S' & -> & _). rewrite S in S'. injection S' as <-.
  rewrite M in M'. injection M' as <-. unfold has_encrypted_data in En. rewrite I, En in K. destruct K as (key & [= <-] & K).
  rewrite D, R in K. discriminate.
Qed.

(** ** PBKDF2 *)
Lemma xor_bytes_length a b : length (xor_bytes a b) = Nat.min (length a) (length b).
Proof. revert b; induction a as [|x a IH]; intros [|y b]; cbn; auto. Qed.
Lemma xor_bytes_assoc a b c : xor_bytes a (xor_bytes b c) = xor_bytes (xor_bytes a b) c.
Proof. revert b c; induction a as [|x a IH]; intros [|y b] [|z c]; cbn; auto. rewrite N.lxor_assoc, IH. reflexivity. Qed.
Lemma iter_inside {A} n (f : A -> A) x : Nat.iter n f (f x) = f (Nat.iter n f x).
Proof. induction n as [|n IH]; [reflexivity|]. change (f (Nat.iter n f (f x)) = f (f (Nat.iter n f x))). now rewrite IH. Qed.
Lemma xor_sum_merge t u l : xor_sum (xor_bytes t u :: l) = xor_sum (t :: u :: l).
Proof. destruct l; [reflexivity|]. cbn [xor_sum]. symmetry. apply xor_bytes_assoc. Qed.
Lemma pbkdf2_sum_spec prf n u t : pbkdf2_sum prf n u t = xor_sum (t :: map (fun j => Nat.iter (S j) prf u) (seq 0 n)).
Proof.
  revert u t. induction n as [|n IH]; intros u t; [reflexivity|]. cbn [pbkdf2_sum]. rewrite IH.
  change (seq 0 (S n)) with (0%nat :: seq 1 n). rewrite <- seq_shift. cbn [map]. rewrite map_map.
  rewrite xor_sum_merge. do 3 f_equal. apply map_ext. intros j. apply iter_inside.
Qed.
Lemma pbkdf2_block_spec hmac password salt n i : (0 < n)%nat ->
  pbkdf2_block (hmac password) salt n (S i) = t_value hmac password salt n i.
Proof.
  intros P. unfold pbkdf2_block, t_value. cbn zeta. rewrite pbkdf2_sum_spec. destruct n as [|n]; [lia|].
  change (seq 0 (S n)) with (0%nat :: seq 1 n). rewrite <- seq_shift. cbn [map]. rewrite map_map. replace (S n - 1)%nat with n by lia. reflexivity.
Qed.
Lemma t_value_length hmac password salt n i : hmac_sha1 hmac -> (0 < n)%nat -> length (t_value hmac password salt n i) = 20%nat.
Proof.
  intros H P. unfold t_value. assert (L : forall u, In u (map (u_value hmac password salt i) (seq 0 n)) -> length u = 20%nat).
  { intros u Hu. apply in_map_iff in Hu as (j & <- & _). unfold u_value. destruct j; apply (hmac_length _ H). }
  destruct n as [|n]; [lia|]. change (seq 0 (S n)) with (0%nat :: seq 1 n) in *. cbn [map] in *.
  revert L. generalize (u_value hmac password salt i 0) as u. induction (map (u_value hmac password salt i) (seq 1 n)) as [|v l IH]; intros u L.
  - apply L. now left.
  - change (xor_sum (u :: v :: l)) with (xor_bytes u (xor_sum (v :: l))). rewrite xor_bytes_length. rewrite (IH v) by (intros w Hw; apply L; now right). rewrite (L u) by now left. reflexivity.
Qed.
Lemma concat_20 (f : nat -> bytes) n a : (forall i, length (f i) = 20%nat) -> length (concat (map f (seq a n))) = (20 * n)%nat.
Proof.
  intros L. revert a. induction n as [|n IH]; intros a; [reflexivity|]. cbn [seq map concat]. rewrite app_length, IH, L. lia.
Qed.
Lemma firstn_more (f : nat -> bytes) n k m : (forall i, length (f i) = 20%nat) -> (n <= 20 * k)%nat -> (k <= m)%nat ->
  firstn n (concat (map f (seq 0 k))) = firstn n (concat (map f (seq 0 m))).
Proof.
  intros L Hn Hk. replace m with (k + (m - k))%nat by lia. rewrite seq_app, map_app, concat_app, firstn_app, concat_20 by exact L.
  replace (n - 20 * k)%nat with 0%nat by lia. rewrite app_nil_r. reflexivity.
Qed.
Lemma psk_spec hmac passphrase ssid n blocks : hmac_sha1 hmac -> (n <= 20 * blocks)%nat ->
  map_passphrase_to_psk (pbkdf2_of hmac) passphrase ssid n = firstn n (psk_stream hmac passphrase ssid blocks).
Proof.
  intros H B. unfold map_passphrase_to_psk, pbkdf2_of, psk_stream. assert (P : (0 < N.to_nat 4096)%nat) by lia.
  revert P. generalize (N.to_nat 4096) as c. intros c P.
  rewrite <- seq_shift, map_map. rewrite (map_ext _ (t_value hmac passphrase ssid c)) by (intros i; apply pbkdf2_block_spec, P).
  pose proof (fun i => t_value_length hmac passphrase ssid c i H P) as L.
  apply firstn_more; [exact L|lia|lia].
Qed.
Lemma psk_length hmac passphrase ssid n : hmac_sha1 hmac -> length (map_passphrase_to_psk (pbkdf2_of hmac) passphrase ssid n) = n.
Proof.
  intros H. rewrite (psk_spec _ _ _ n n H) by lia. unfold psk_stream. assert (P : (0 < N.to_nat 4096)%nat) by lia.
  revert P. generalize (N.to_nat 4096) as c. intros c P.
  rewrite firstn_length, concat_20; [lia|]. intros i. apply t_value_length; assumption.
Qed.
Lemma psk_prefix hmac passphrase ssid m n : hmac_sha1 hmac -> (m <= n)%nat ->
  map_passphrase_to_psk (pbkdf2_of hmac) passphrase ssid m = firstn m (map_passphrase_to_psk (pbkdf2_of hmac) passphrase ssid n).
Proof.
  intros H L. rewrite (psk_spec _ _ _ m n H), (psk_spec _ _ _ n n H) by lia. rewrite firstn_firstn. f_equal. lia.
Qed.
