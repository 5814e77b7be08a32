(** AES-128 can be undone and so can key wrap with it: [aes_wrap] and [aes_unwrap] are a [key_wrap].
    SHA-1 has 20 bytes of output. *)
From Verif Require Import Base BaseFacts SpecBase Aes Sha1 SpecKeyMgmt.
Local Open Scope N_scope.

Lemma byte_sweep (P : N -> bool) : forallb P (map N.of_nat (seq 0 256)) = true -> forall x, x < 256 -> P x = true.
Proof.
  intros H x Hx. rewrite forallb_forall in H. apply H. apply in_map_iff. exists (N.to_nat x).
  split; [apply N2Nat.id|]. apply in_seq. lia.
Qed.
Lemma lxor_byte a b : a < 256 -> b < 256 -> N.lxor a b < 256.
Proof.
  intros Ha Hb. destruct (N.eq_dec (N.lxor a b) 0) as [->|Hn]; [lia|].
  change 256 with (2 ^ 8). apply N.log2_lt_pow2; [lia|].
  eapply N.le_lt_trans; [apply N.log2_lxor|].
  apply N.max_lub_lt; (destruct (N.eq_dec a 0) as [->|]; destruct (N.eq_dec b 0) as [->|]; try (cbn; lia); try (apply N.log2_lt_pow2; cbn; lia)).
Qed.
Lemma table_byte t i : forallb (fun x => x <? 256) t = true -> nth i t 0 < 256.
Proof.
  intros H. destruct (Nat.lt_ge_cases i (length t)) as [Hi|Hi].
  - rewrite forallb_forall in H. apply N.ltb_lt, H, nth_In, Hi.
  - rewrite nth_overflow by exact Hi. lia.
Qed.
Lemma sbox_byte x : sbox x < 256.
Proof. apply table_byte. reflexivity. Qed.
Lemma inv_sbox_byte x : inv_sbox x < 256.
Proof. apply table_byte. reflexivity. Qed.
Lemma inv_sbox_sbox x : x < 256 -> inv_sbox (sbox x) = x.
Proof. intros H. apply N.eqb_eq. revert x H. apply byte_sweep. vm_compute. reflexivity. Qed.

(** ** The columns *)
Lemma m2_byte x : x < 256 -> m2 x < 256.
Proof. intros H. apply N.ltb_lt. revert x H. apply byte_sweep. vm_compute. reflexivity. Qed.
Lemma m2_add x y : x < 256 -> y < 256 -> m2 (N.lxor x y) = N.lxor (m2 x) (m2 y).
Proof.
  intros Hx Hy. apply N.eqb_eq. revert y Hy. apply byte_sweep. revert x Hx. apply byte_sweep. vm_compute. reflexivity.
Qed.
Ltac xring := apply N.bits_inj; intro; rewrite ?N.lxor_spec; ring.
Ltac bytes_tac := repeat first [apply lxor_byte | apply m2_byte | assumption].
Lemma m4_add x y : x < 256 -> y < 256 -> m4 (N.lxor x y) = N.lxor (m4 x) (m4 y).
Proof. intros. unfold m4. rewrite !m2_add; auto using m2_byte. Qed.
Lemma m4_byte x : x < 256 -> m4 x < 256.
Proof. intros. unfold m4. auto using m2_byte. Qed.
Lemma m8_add x y : x < 256 -> y < 256 -> m8 (N.lxor x y) = N.lxor (m8 x) (m8 y).
Proof. intros. unfold m8. rewrite m4_add, m2_add; auto using m4_byte. Qed.
Lemma m8_byte x : x < 256 -> m8 x < 256.
Proof. intros. unfold m8. auto using m2_byte, m4_byte. Qed.
Lemma m3_byte x : x < 256 -> m3 x < 256.
Proof. intros. unfold m3. auto using m2_byte, lxor_byte. Qed.
Lemma m9_add x y : x < 256 -> y < 256 -> m9 (N.lxor x y) = N.lxor (m9 x) (m9 y).
Proof. intros. unfold m9. rewrite m8_add by assumption. xring. Qed.
Lemma m11_add x y : x < 256 -> y < 256 -> m11 (N.lxor x y) = N.lxor (m11 x) (m11 y).
Proof. intros. unfold m11, m3. rewrite m8_add, m2_add by assumption. xring. Qed.
Lemma m13_add x y : x < 256 -> y < 256 -> m13 (N.lxor x y) = N.lxor (m13 x) (m13 y).
Proof. intros. unfold m13. rewrite m8_add, m4_add by assumption. xring. Qed.
Lemma m14_add x y : x < 256 -> y < 256 -> m14 (N.lxor x y) = N.lxor (m14 x) (m14 y).
Proof. intros. unfold m14. rewrite m8_add, m4_add, m2_add by assumption. xring. Qed.
Lemma xor4_byte a b c d : a < 256 -> b < 256 -> c < 256 -> d < 256 -> xor4 a b c d < 256.
Proof. intros. unfold xor4. auto using lxor_byte. Qed.
(** [f] is additive *)
Lemma xor4_add f a b c d : (forall x y, x < 256 -> y < 256 -> f (N.lxor x y) = N.lxor (f x) (f y)) ->
  a < 256 -> b < 256 -> c < 256 -> d < 256 -> f (xor4 a b c d) = xor4 (f a) (f b) (f c) (f d).
Proof. intros H ? ? ? ?. unfold xor4. rewrite !H; auto using lxor_byte. Qed.
Lemma m9_xor4 a b c d : a < 256 -> b < 256 -> c < 256 -> d < 256 -> m9 (xor4 a b c d) = xor4 (m9 a) (m9 b) (m9 c) (m9 d).
Proof. apply (xor4_add m9), m9_add. Qed.
Lemma m11_xor4 a b c d : a < 256 -> b < 256 -> c < 256 -> d < 256 -> m11 (xor4 a b c d) = xor4 (m11 a) (m11 b) (m11 c) (m11 d).
Proof. apply (xor4_add m11), m11_add. Qed.
Lemma m13_xor4 a b c d : a < 256 -> b < 256 -> c < 256 -> d < 256 -> m13 (xor4 a b c d) = xor4 (m13 a) (m13 b) (m13 c) (m13 d).
Proof. apply (xor4_add m13), m13_add. Qed.
Lemma m14_xor4 a b c d : a < 256 -> b < 256 -> c < 256 -> d < 256 -> m14 (xor4 a b c d) = xor4 (m14 a) (m14 b) (m14 c) (m14 d).
Proof. apply (xor4_add m14), m14_add. Qed.
Lemma xor4_transpose a1 a2 a3 a4 b1 b2 b3 b4 c1 c2 c3 c4 d1 d2 d3 d4 :
  xor4 (xor4 a1 a2 a3 a4) (xor4 b1 b2 b3 b4) (xor4 c1 c2 c3 c4) (xor4 d1 d2 d3 d4) =
  xor4 (xor4 a1 b1 c1 d1) (xor4 a2 b2 c2 d2) (xor4 a3 b3 c3 d3) (xor4 a4 b4 c4 d4).
Proof. unfold xor4. xring. Qed.
Lemma sweep2 (f g : N -> N) : forallb (fun x => f x =? g x) (map N.of_nat (seq 0 256)) = true -> forall x, x < 256 -> f x = g x.
Proof. intros H x Hx. apply N.eqb_eq. revert x Hx. apply byte_sweep. exact H. Qed.
Lemma columns_inverse a b c d : a < 256 -> b < 256 -> c < 256 -> d < 256 ->
  columns inv_mix_column (mix_column a b c d) = [a; b; c; d].
Proof.
  intros Ha Hb Hc Hd. cbn [mix_column columns inv_mix_column app].
  pose proof (m2_byte _ Ha); pose proof (m2_byte _ Hb); pose proof (m2_byte _ Hc); pose proof (m2_byte _ Hd).
  pose proof (m3_byte _ Ha); pose proof (m3_byte _ Hb); pose proof (m3_byte _ Hc); pose proof (m3_byte _ Hd).
  rewrite !m14_xor4, !m13_xor4, !m11_xor4, !m9_xor4 by assumption.
  pose proof sweep2 as E.
  assert (X : forall x, xor4 x 0 0 0 = x /\ xor4 0 x 0 0 = x /\ xor4 0 0 x 0 = x /\ xor4 0 0 0 x = x)
    by (intros x; unfold xor4; rewrite ?N.lxor_0_r, ?N.lxor_0_l; auto).
  repeat f_equal; rewrite xor4_transpose.
  - rewrite (E (fun a => xor4 (m14 (m2 a)) (m11 a) (m13 a) (m9 (m3 a))) (fun a => a) eq_refl a Ha).
    rewrite (E (fun b => xor4 (m14 (m3 b)) (m11 (m2 b)) (m13 b) (m9 b)) (fun _ => 0) eq_refl b Hb).
    rewrite (E (fun c => xor4 (m14 c) (m11 (m3 c)) (m13 (m2 c)) (m9 c)) (fun _ => 0) eq_refl c Hc).
    rewrite (E (fun d => xor4 (m14 d) (m11 d) (m13 (m3 d)) (m9 (m2 d))) (fun _ => 0) eq_refl d Hd).
    apply X.
  - rewrite (E (fun a => xor4 (m9 (m2 a)) (m14 a) (m11 a) (m13 (m3 a))) (fun a => 0) eq_refl a Ha).
    rewrite (E (fun b => xor4 (m9 (m3 b)) (m14 (m2 b)) (m11 b) (m13 b)) (fun b => b) eq_refl b Hb).
    rewrite (E (fun c => xor4 (m9 c) (m14 (m3 c)) (m11 (m2 c)) (m13 c)) (fun _ => 0) eq_refl c Hc).
    rewrite (E (fun d => xor4 (m9 d) (m14 d) (m11 (m3 d)) (m13 (m2 d))) (fun _ => 0) eq_refl d Hd).
    apply X.
  - rewrite (E (fun a => xor4 (m13 (m2 a)) (m9 a) (m14 a) (m11 (m3 a))) (fun a => 0) eq_refl a Ha).
    rewrite (E (fun b => xor4 (m13 (m3 b)) (m9 (m2 b)) (m14 b) (m11 b)) (fun b => 0) eq_refl b Hb).
    rewrite (E (fun c => xor4 (m13 c) (m9 (m3 c)) (m14 (m2 c)) (m11 c)) (fun c => c) eq_refl c Hc).
    rewrite (E (fun d => xor4 (m13 d) (m9 d) (m14 (m3 d)) (m11 (m2 d))) (fun _ => 0) eq_refl d Hd).
    apply X.
  - rewrite (E (fun a => xor4 (m11 (m2 a)) (m13 a) (m9 a) (m14 (m3 a))) (fun a => 0) eq_refl a Ha).
    rewrite (E (fun b => xor4 (m11 (m3 b)) (m13 (m2 b)) (m9 b) (m14 b)) (fun b => 0) eq_refl b Hb).
    rewrite (E (fun c => xor4 (m11 c) (m13 (m3 c)) (m9 (m2 c)) (m14 c)) (fun c => 0) eq_refl c Hc).
    rewrite (E (fun d => xor4 (m11 d) (m13 d) (m9 (m3 d)) (m14 (m2 d))) (fun d => d) eq_refl d Hd).
    apply X.
Qed.
Lemma list16 (s : bytes) : length s = 16%nat -> exists a b c d e f g h i j k l m n o p, s = [a; b; c; d; e; f; g; h; i; j; k; l; m; n; o; p].
Proof.
  intros H. do 16 (destruct s as [|? s]; [discriminate H|]). destruct s; [|discriminate H]. repeat eexists.
Qed.
Lemma mix_inverse s : length s = 16%nat -> wf_bytes s -> columns inv_mix_column (columns mix_column s) = s.
Proof.
  intros L W. apply list16 in L as (a & b & c & d & e & f & g & h & i & j & k & l & m & n & o & p & ->).
  rewrite !wf_bytes_cons in W.
  pose proof (columns_inverse a b c d) as E1. pose proof (columns_inverse e f g h) as E2.
  pose proof (columns_inverse i j k l) as E3. pose proof (columns_inverse m n o p) as E4.
  cbn [columns mix_column app] in E1, E2, E3, E4 |- *. unfold inv_mix_column in *. cbn [app] in *.
  specialize (E1 ltac:(tauto) ltac:(tauto) ltac:(tauto) ltac:(tauto)). specialize (E2 ltac:(tauto) ltac:(tauto) ltac:(tauto) ltac:(tauto)).
  specialize (E3 ltac:(tauto) ltac:(tauto) ltac:(tauto) ltac:(tauto)). specialize (E4 ltac:(tauto) ltac:(tauto) ltac:(tauto) ltac:(tauto)).
  injection E1 as -> -> -> ->. injection E2 as -> -> -> ->. injection E3 as -> -> -> ->. injection E4 as -> -> -> ->. reflexivity.
Qed.
Lemma columns_length f s : (forall a b c d, length (f a b c d) = 4%nat) -> length s = 16%nat -> length (columns f s) = 16%nat.
Proof.
  intros F L. apply list16 in L as (a & b & c & d & e & g & h & i & j & k & l & m & n & o & p & q & ->).
  cbn [columns]. rewrite !app_length, !F. reflexivity.
Qed.
Lemma mix_wf s : length s = 16%nat -> wf_bytes s -> wf_bytes (columns mix_column s).
Proof.
  intros L W. apply list16 in L as (a & b & c & d & e & f & g & h & i & j & k & l & m & n & o & p & ->).
  rewrite !wf_bytes_cons in W. cbn [columns mix_column app].
  assert (X : forall x y z w, x < 256 -> y < 256 -> z < 256 -> w < 256 -> wf_bytes (mix_column x y z w)).
  { intros x y z w ? ? ? ?. unfold mix_column. rewrite !wf_bytes_cons. repeat split; auto using xor4_byte, m2_byte, m3_byte, wf_bytes_nil. }
  pose proof (X a b c d) as X1. pose proof (X e f g h) as X2. pose proof (X i j k l) as X3. pose proof (X m n o p) as X4.
  unfold mix_column in *. rewrite !wf_bytes_cons in *. tauto.
Qed.

(** ** The other layers *)
Lemma shift_inverse s : length s = 16%nat -> inv_shift_rows (shift_rows s) = s.
Proof. intros L. apply list16 in L as (a & b & c & d & e & f & g & h & i & j & k & l & m & n & o & p & ->). reflexivity. Qed.
Lemma nth_wf i s : wf_bytes s -> nth i s 0 < 256.
Proof.
  intros H. destruct (Nat.lt_ge_cases i (length s)) as [Hi|Hi].
  - unfold wf_bytes in H. rewrite Forall_forall in H. apply H, nth_In, Hi.
  - rewrite nth_overflow by exact Hi. lia.
Qed.
Lemma shift_wf s : wf_bytes s -> wf_bytes (shift_rows s).
Proof. intros H. apply Forall_map, Forall_forall. intros i _. apply nth_wf, H. Qed.
Lemma shift_length s : length (shift_rows s) = 16%nat.
Proof. reflexivity. Qed.
Lemma map_sbox_inverse s : wf_bytes s -> map inv_sbox (map sbox s) = s.
Proof. induction 1 as [|x s Hx Hs IH]; [reflexivity|]. cbn [map]. rewrite inv_sbox_sbox, IH; auto. Qed.
Lemma map_sbox_wf s : wf_bytes (map sbox s).
Proof. apply Forall_map, Forall_forall. intros x _. apply sbox_byte. Qed.
Lemma map_inv_sbox_wf s : wf_bytes (map inv_sbox s).
Proof. apply Forall_map, Forall_forall. intros x _. apply inv_sbox_byte. Qed.
Lemma xor_length a b : length (xor_bytes a b) = Nat.min (length a) (length b).
Proof. revert b; induction a as [|x a IH]; intros [|y b]; cbn; auto. Qed.
Lemma xor_inverse a b : length a = length b -> xor_bytes (xor_bytes a b) b = a.
Proof.
  revert b; induction a as [|x a IH]; intros [|y b] L; try discriminate L; [reflexivity|]. cbn.
  rewrite IH by (injection L; auto). f_equal. rewrite N.lxor_assoc, N.lxor_nilpotent. apply N.lxor_0_r.
Qed.
Lemma xor_wf a b : wf_bytes a -> wf_bytes b -> wf_bytes (xor_bytes a b).
Proof.
  intros Ha. revert b; induction Ha as [|x a Hx Ha IH]; intros b Hb; [constructor|]. destruct Hb as [|y b Hy Hb]; [constructor|].
  cbn. constructor; [apply lxor_byte; assumption|apply IH, Hb].
Qed.

(** ** AES *)
Definition good_key (k : bytes) : Prop := length k = 16%nat /\ wf_bytes k.
Lemma key_of_good kek : good_key (key_of kek).
Proof.
  unfold key_of; split.
  - rewrite map_length, firstn_length, app_length, repeat_length. lia.
  - apply Forall_map, Forall_forall. intros x _. apply N.mod_lt. discriminate.
Qed.
Lemma expand_good rcs k : wf_bytes rcs -> good_key k -> Forall good_key (expand rcs k).
Proof.
  intros R. revert k. induction R as [|rc rcs Hrc Hrcs IH]; intros k [L W]; cbn [expand]; [constructor|].
  assert (G : forall k', good_key k' -> Forall good_key (k' :: expand rcs k')) by (intros k' Hk'; constructor; [exact Hk'|apply IH, Hk']).
  apply G. clear G IH. apply list16 in L as (a & b & c & d & e & f & g & h & i & j & k' & l & m & n & o & p & ->).
  cbn -[N.lxor sbox]. rewrite !wf_bytes_cons in W. split; [reflexivity|].
  rewrite !wf_bytes_cons. pose proof sbox_byte. repeat split; try apply wf_bytes_nil; repeat apply lxor_byte; auto; tauto.
Qed.
Lemma round_keys_good kek : Forall good_key (round_keys kek).
Proof. apply expand_good; [apply wf_bytesb_spec; reflexivity|apply key_of_good]. Qed.
Lemma expand_length rcs k : length (expand rcs k) = length rcs.
Proof. revert k; induction rcs; intros k; cbn [expand length]; [reflexivity|f_equal; auto]. Qed.
Lemma round_keys_cons kek : exists k ks, round_keys kek = k :: ks.
Proof.
  assert (H : length (round_keys kek) = 10%nat) by (unfold round_keys; rewrite expand_length; reflexivity).
  destruct (round_keys kek); [discriminate H|eauto].
Qed.
Lemma rounds_inverse ks : Forall good_key ks -> forall s, length s = 16%nat -> wf_bytes s ->
  dec_rounds ks (enc_rounds ks s) = s /\ length (enc_rounds ks s) = 16%nat /\ wf_bytes (enc_rounds ks s).
Proof.
  induction 1 as [|k ks [Lk Wk] Hks IH]; intros s L W; [auto|].
  assert (Ls : length (map sbox s) = 16%nat) by (rewrite map_length; exact L).
  destruct ks as [|k' ks].
  - cbn [enc_rounds dec_rounds]. rewrite xor_inverse by (rewrite shift_length; auto).
    rewrite shift_inverse, map_sbox_inverse by assumption.
    repeat split. { rewrite xor_length, shift_length, Lk. reflexivity. } apply xor_wf; [apply shift_wf, map_sbox_wf|exact Wk].
  - set (s' := xor_bytes (columns mix_column (shift_rows (map sbox s))) k).
    assert (Lm : length (columns mix_column (shift_rows (map sbox s))) = 16%nat) by (apply columns_length; [reflexivity|apply shift_length]).
    assert (Wm : wf_bytes (shift_rows (map sbox s))) by apply shift_wf, map_sbox_wf.
    assert (L' : length s' = 16%nat) by (unfold s'; rewrite xor_length, Lm, Lk; reflexivity).
    assert (W' : wf_bytes s') by (apply xor_wf; [apply mix_wf; [apply shift_length|exact Wm]|exact Wk]).
    destruct (IH s' L' W') as (E & L2 & W2).
    change (enc_rounds (k :: k' :: ks) s) with (enc_rounds (k' :: ks) s').
    change (dec_rounds (k :: k' :: ks) (enc_rounds (k' :: ks) s'))
      with (map inv_sbox (inv_shift_rows (columns inv_mix_column (xor_bytes (dec_rounds (k' :: ks) (enc_rounds (k' :: ks) s')) k)))).
    rewrite E. unfold s' at 1. rewrite xor_inverse by lia. rewrite mix_inverse by (try exact Wm; apply shift_length).
    rewrite shift_inverse, map_sbox_inverse by assumption. auto.
Qed.
Lemma enc_rounds_length ks : Forall good_key ks -> forall s, length s = 16%nat -> length (enc_rounds ks s) = 16%nat.
Proof.
  induction 1 as [|k ks [Lk Wk] Hks IH]; intros s L; [auto|]. destruct ks as [|k' ks].
  - cbn [enc_rounds]. rewrite xor_length, shift_length, Lk. reflexivity.
  - change (enc_rounds (k :: k' :: ks) s) with (enc_rounds (k' :: ks) (xor_bytes (columns mix_column (shift_rows (map sbox s))) k)).
    apply IH. rewrite xor_length, Lk, columns_length; [reflexivity|reflexivity|apply shift_length].
Qed.
Lemma dec_rounds_length ks s : Forall good_key ks -> length s = 16%nat -> length (dec_rounds ks s) = 16%nat.
Proof. intros H L. destruct ks as [|k [|k' ks]]; [exact L| |]; cbn [dec_rounds]; rewrite map_length; reflexivity. Qed.
Lemma enc_rounds_wf k ks s : Forall good_key (k :: ks) -> wf_bytes (enc_rounds (k :: ks) s).
Proof.
  revert k s. induction ks as [|k' ks IH]; intros k s H.
  - cbn [enc_rounds]. apply xor_wf; [apply shift_wf, map_sbox_wf|]. inversion H as [|? ? [? ?]]; assumption.
  - change (enc_rounds (k :: k' :: ks) s) with (enc_rounds (k' :: ks) (xor_bytes (columns mix_column (shift_rows (map sbox s))) k)).
    apply IH. inversion H; assumption.
Qed.
Lemma dec_rounds_wf k ks s : wf_bytes (dec_rounds (k :: ks) s).
Proof. destruct ks; apply map_inv_sbox_wf. Qed.

(** What key wrap needs of a block cipher *)
Record block_cipher (enc dec : bytes -> bytes -> bytes) : Prop := {
  bc_inverse : forall k s, length s = 16%nat -> wf_bytes s -> dec k (enc k s) = s;
  bc_enc_length : forall k s, length s = 16%nat -> length (enc k s) = 16%nat;
  bc_dec_length : forall k s, length s = 16%nat -> length (dec k s) = 16%nat;
  bc_enc_wf : forall k s, wf_bytes (enc k s);
  bc_dec_wf : forall k s, wf_bytes (dec k s)
}.
Lemma aes_block_cipher : block_cipher aes_enc aes_dec.
Proof.
  pose proof round_keys_good as R. pose proof key_of_good as K.
  split; intros k s; unfold aes_enc, aes_dec; specialize (R k); destruct (K k) as [LK WK].
  - intros L W. destruct (rounds_inverse _ R (xor_bytes s (key_of k))) as (-> & _).
    + rewrite xor_length, L, LK. reflexivity.
    + apply xor_wf; assumption.
    + apply xor_inverse. lia.
  - intros L. apply enc_rounds_length; [exact R|]. rewrite xor_length, L, LK. reflexivity.
  - intros L. rewrite xor_length, dec_rounds_length, LK by assumption. reflexivity.
  - destruct (round_keys_cons k) as (? & ? & E). rewrite E in *. apply enc_rounds_wf, R.
  - apply xor_wf; [|exact WK]. destruct (round_keys_cons k) as (? & ? & E). rewrite E. apply dec_rounds_wf.
Qed.

(** ** Key wrap *)
Definition good_block (b : bytes) : Prop := length b = 8%nat.
Lemma blocks8_spec fuel p : (length p <= fuel)%nat -> (length p mod 8 = 0)%nat ->
  concat (blocks8 fuel p) = p /\ Forall good_block (blocks8 fuel p) /\ (8 * length (blocks8 fuel p) = length p)%nat /\
  (wf_bytes p -> Forall wf_bytes (blocks8 fuel p)).
Proof.
  revert p. induction fuel as [|fuel IH]; intros p L M.
  - destruct p; [|cbn in L; lia]. cbn. repeat split; constructor.
  - destruct p as [|x p']; [cbn; repeat split; constructor|]. set (p := x :: p') in *.
    assert (Hp : (8 <= length p)%nat) by (unfold p in *; cbn [length] in *; lia).
    change (blocks8 (S fuel) p) with (firstn 8 p :: blocks8 fuel (skipn 8 p)).
    destruct (IH (skipn 8 p)) as (E & F & G & W); rewrite ?skipn_length; [lia|lia|].
    cbn [concat length]. rewrite E, firstn_skipn. rewrite skipn_length in G.
    repeat split.
    + constructor; [|exact F]. unfold good_block. rewrite firstn_length. lia.
    + lia.
    + intros Wp. constructor; [apply wf_firstn, Wp|apply W, wf_skipn, Wp].
Qed.
(** the blocks are recovered *)
Lemma blocks8_concat fuel rs : Forall good_block rs -> (length (concat rs) <= fuel)%nat -> blocks8 fuel (concat rs) = rs.
Proof.
  intros F. revert fuel. induction F as [|b rs Hb F IH]; intros fuel L.
  - destruct fuel; reflexivity.
  - unfold good_block in Hb. cbn [concat] in *. rewrite app_length in L. destruct fuel as [|fuel]; [lia|].
    assert (E : blocks8 (S fuel) (b ++ concat rs) = firstn 8 (b ++ concat rs) :: blocks8 fuel (skipn 8 (b ++ concat rs)))
      by (destruct b; [discriminate Hb|reflexivity]).
    rewrite E. rewrite <- Hb at 1 2. rewrite firstn_app, skipn_app, firstn_all, skipn_all, Nat.sub_diag, app_nil_r. cbn [skipn app].
    rewrite IH by lia. reflexivity.
Qed.
Lemma concat_length8 rs : Forall good_block rs -> length (concat rs) = (8 * length rs)%nat.
Proof. induction 1 as [|b rs Hb F IH]; [reflexivity|]. cbn [concat length]. rewrite app_length, IH, Hb. lia. Qed.
Lemma concat_wf rs : Forall wf_bytes rs -> wf_bytes (concat rs).
Proof. induction 1; [constructor|]. cbn [concat]. apply wf_bytes_app. auto. Qed.

Lemma split8 (a b : bytes) : length a = 8%nat -> firstn 8 (a ++ b) = a /\ skipn 8 (a ++ b) = b.
Proof.
  intros <-. rewrite firstn_app, skipn_app, firstn_all, skipn_all, Nat.sub_diag, app_nil_r. auto.
Qed.

Section Wrap.
Variables enc dec : bytes -> bytes -> bytes.
Hypothesis BC : block_cipher enc dec.
Variable k : bytes.
(** the state: [n] blocks; [w]: it consists of bytes *)
Definition good_state (n : nat) (s : N * list bytes) : Prop := length (snd s) = n /\ Forall good_block (snd s).
Definition wf_state (s : N * list bytes) : Prop := fst s < 2 ^ 64 /\ Forall wf_bytes (snd s).
Lemma lxor_64 a b : a < 2 ^ 64 -> b < 2 ^ 64 -> N.lxor a b < 2 ^ 64.
Proof.
  intros Ha Hb. destruct (N.eq_dec (N.lxor a b) 0) as [->|Hn]; [reflexivity|].
  apply N.log2_lt_pow2; [lia|]. eapply N.le_lt_trans; [apply N.log2_lxor|].
  apply N.max_lub_lt; [destruct (N.eq_dec a 0) as [->|]|destruct (N.eq_dec b 0) as [->|]]; try reflexivity; apply N.log2_lt_pow2; try assumption; lia.
Qed.
Lemma be8_bound bs : wf_bytes bs -> length bs = 8%nat -> be_val bs < 2 ^ 64.
Proof. intros W L. pose proof (be_val_bound bs W) as H. rewrite L in H. exact H. Qed.
Lemma step_good n s t : good_state n s -> good_state n (wrap_step (enc k) s t).
Proof.
  intros [L F]. unfold wrap_step. destruct s as [a [|r rs]]; cbn [fst snd] in *; [split; assumption|].
  inversion F as [|? ? Hr Hrs]; subst. unfold good_block in Hr. split; cbn [snd].
  - rewrite app_length. cbn [length]. lia.
  - apply Forall_app. split; [exact Hrs|]. constructor; [|constructor]. unfold good_block.
    rewrite skipn_length, (bc_enc_length _ _ BC); [reflexivity|]. rewrite app_length, be_bytes_length, Hr. reflexivity.
Qed.
Lemma step_wf s t : wf_state s -> wf_state (wrap_step (enc k) s t).
Proof.
  intros [A F]. unfold wrap_step. destruct s as [a [|r rs]]; cbn [fst snd] in *; [split; assumption|].
  inversion F as [|? ? Hr Hrs]; subst. split; cbn [fst snd].
  - apply lxor_64; [|apply N.mod_lt; discriminate].
    pose proof (bc_enc_wf _ _ BC k (be_bytes 8 a ++ r)) as W. apply (wf_firstn 8) in W.
    pose proof (be_val_bound _ W) as H. eapply N.lt_le_trans; [exact H|]. change (2 ^ 64) with (256 ^ 8).
    apply N.pow_le_mono_r; [discriminate|]. rewrite firstn_length. lia.
  - apply Forall_app. split; [exact Hrs|]. constructor; [|constructor]. apply wf_skipn, (bc_enc_wf _ _ BC).
Qed.
Lemma unstep_good n s t : good_state n s -> good_state n (unwrap_step (dec k) s t).
Proof.
  intros [L F]. unfold unwrap_step. destruct s as [a rs]; cbn [fst snd] in *.
  destruct rs as [|r rs]; [split; assumption|].
  destruct (exists_last (l := r :: rs) ltac:(discriminate)) as (rs' & r' & E). rewrite E in *.
  rewrite last_last, removelast_last. apply Forall_app in F as [F1 F2]. inversion F2 as [|? ? Hr _]; subst. unfold good_block in Hr.
  rewrite app_length in *. cbn [length] in *. split; cbn [snd length].
  - lia.
  - constructor; [|exact F1]. unfold good_block. rewrite skipn_length, (bc_dec_length _ _ BC); [reflexivity|].
    rewrite app_length, be_bytes_length, Hr. reflexivity.
Qed.
Lemma unstep_wf s t : wf_state s -> wf_state (unwrap_step (dec k) s t).
Proof.
  intros [A F]. unfold unwrap_step. destruct s as [a rs]; cbn [fst snd] in *.
  destruct rs as [|r rs]; [split; assumption|].
  destruct (exists_last (l := r :: rs) ltac:(discriminate)) as (rs' & r' & E). rewrite E in *.
  rewrite last_last, removelast_last. apply Forall_app in F as [F1 F2]. inversion F2 as [|? ? Hr _]; subst. split; cbn [fst snd].
  - pose proof (bc_dec_wf _ _ BC k (be_bytes 8 (N.lxor a (N.of_nat t mod 2 ^ 64)) ++ r')) as W. apply (wf_firstn 8) in W.
    pose proof (be_val_bound _ W) as H. eapply N.lt_le_trans; [exact H|]. change (2 ^ 64) with (256 ^ 8).
    apply N.pow_le_mono_r; [discriminate|]. rewrite firstn_length. lia.
  - constructor; [|exact F1]. apply wf_skipn, (bc_dec_wf _ _ BC).
Qed.
Lemma unstep_step n s t : good_state n s -> wf_state s -> unwrap_step (dec k) (wrap_step (enc k) s t) t = s.
Proof.
  intros [L F] [A W]. unfold wrap_step. destruct s as [a [|r rs]]; cbn [fst snd] in *; [reflexivity|].
  inversion F as [|? ? Hr Hrs]; subst. unfold good_block in Hr. inversion W as [|? ? Wr Wrs]; subst.
  set (b := enc k (be_bytes 8 a ++ r)).
  assert (Li : length (be_bytes 8 a ++ r) = 16%nat) by (rewrite app_length, be_bytes_length, Hr; reflexivity).
  assert (Lb : length b = 16%nat) by (apply (bc_enc_length _ _ BC), Li).
  assert (Wb : wf_bytes b) by apply (bc_enc_wf _ _ BC).
  unfold unwrap_step. cbn [fst snd]. destruct (rs ++ [skipn 8 b]) eqn:E; [destruct rs; discriminate E|]. rewrite <- E. clear E.
  rewrite last_last, removelast_last.
  rewrite N.lxor_assoc, N.lxor_nilpotent, N.lxor_0_r.
  replace (be_bytes 8 (be_val (firstn 8 b))) with (firstn 8 b).
  2:{ symmetry. replace 8%nat with (length (firstn 8 b)) at 1 by (rewrite firstn_length; lia). apply be_bytes_val, wf_firstn, Wb. }
  rewrite firstn_skipn. unfold b. rewrite (bc_inverse _ _ BC).
  - destruct (split8 (be_bytes 8 a) r) as [-> ->]; [apply be_bytes_length|]. f_equal. apply be_val_bytes_small. exact A.
  - exact Li.
  - apply wf_bytes_app. split; [apply be_bytes_wf|exact Wr].
Qed.
Lemma steps_good n ts s : good_state n s -> good_state n (fold_left (wrap_step (enc k)) ts s).
Proof. revert s; induction ts; intros s H; cbn [fold_left]; auto using step_good. Qed.
Lemma steps_wf ts s : wf_state s -> wf_state (fold_left (wrap_step (enc k)) ts s).
Proof. revert s; induction ts; intros s H; cbn [fold_left]; auto using step_wf. Qed.
Lemma unsteps_good n ts s : good_state n s -> good_state n (fold_left (unwrap_step (dec k)) ts s).
Proof. revert s; induction ts; intros s H; cbn [fold_left]; auto using unstep_good. Qed.
Lemma unsteps_wf ts s : wf_state s -> wf_state (fold_left (unwrap_step (dec k)) ts s).
Proof. revert s; induction ts; intros s H; cbn [fold_left]; auto using unstep_wf. Qed.
Lemma unsteps_steps n ts s : good_state n s -> wf_state s ->
  fold_left (unwrap_step (dec k)) (rev ts) (fold_left (wrap_step (enc k)) ts s) = s.
Proof.
  revert s; induction ts as [|t ts IH]; intros s G W; [reflexivity|]. cbn [fold_left rev]. rewrite fold_left_app. cbn [fold_left].
  rewrite IH; [|apply step_good, G|apply step_wf, W]. apply unstep_step with n; assumption.
Qed.
End Wrap.
Lemma wrap_key_wrap enc dec : block_cipher enc dec -> key_wrap (wrap_of enc) (unwrap_of dec).
Proof.
  intros BC. split.
  - intros kek p L M. unfold wrap_of. destruct (blocks8_spec (length p) p (le_n _) M) as (E & F & G & W).
    pose proof (steps_good enc dec BC kek (length (blocks8 (length p) p)) (seq 1 (6 * length (blocks8 (length p) p))) (wrap_iv, blocks8 (length p) p) (conj eq_refl F)) as [L' F'].
    destruct (fold_left _ _ _) as [a rs]. cbn [snd] in *. rewrite app_length, be_bytes_length, concat_length8, L' by assumption. lia.
  - intros kek p W. unfold wrap_of.
    assert (Wb : Forall wf_bytes (blocks8 (length p) p)).
    { clear - W. revert W. generalize (length p) as n. intros n. revert p. induction n as [|n IH]; intros p W; cbn [blocks8]; [constructor|].
      destruct p; [constructor|]. constructor; [apply wf_firstn, W|apply IH, wf_skipn, W]. }
    pose proof (steps_wf enc dec BC kek (seq 1 (6 * length (blocks8 (length p) p))) (wrap_iv, blocks8 (length p) p) (conj eq_refl Wb)) as [_ W'].
    destruct (fold_left _ _ _) as [a rs]. cbn [snd] in *. apply wf_bytes_app. split; [apply be_bytes_wf|apply concat_wf, W'].
  - intros kek p L M W. unfold wrap_of. destruct (blocks8_spec (length p) p (le_n _) M) as (E & F & G & Wb). specialize (Wb W).
    set (rs0 := blocks8 (length p) p) in *.
    pose proof (steps_good enc dec BC kek (length rs0) (seq 1 (6 * length rs0)) (wrap_iv, rs0) (conj eq_refl F)) as [L' F'].
    pose proof (steps_wf enc dec BC kek (seq 1 (6 * length rs0)) (wrap_iv, rs0) (conj eq_refl Wb)) as [A' W'].
    pose proof (unsteps_steps enc dec BC kek (length rs0) (seq 1 (6 * length rs0)) (wrap_iv, rs0) (conj eq_refl F) (conj eq_refl Wb)) as U.
    destruct (fold_left (wrap_step _) _ _) as [a rs]. cbn [fst snd] in *.
    assert (Lc : length (concat rs) = length p) by (rewrite concat_length8, L' by assumption; exact G).
    unfold unwrap_of. rewrite app_length, be_bytes_length, Lc.
    assert (X : ((8 + length p) mod 8 =? 0)%nat && (24 <=? 8 + length p)%nat = true).
    { apply andb_true_iff. split; [apply Nat.eqb_eq; lia|apply Nat.leb_le; lia]. }
    rewrite X. destruct (split8 (be_bytes 8 a) (concat rs)) as [-> ->]; [apply be_bytes_length|].
    rewrite be_val_bytes_small by exact A'. rewrite blocks8_concat by (try assumption; lia). rewrite L', U. rewrite N.eqb_refl, E. reflexivity.
  - intros kek c p. unfold unwrap_of. destruct (_ && _) eqn:X; [|discriminate]. apply andb_true_iff in X as [M L]. apply Nat.eqb_eq in M. apply Nat.leb_le in L.
    destruct (blocks8_spec (length c) (skipn 8 c)) as (E & F & G & W); rewrite ?skipn_length; [lia|lia|]. rewrite skipn_length in G.
    set (rs0 := blocks8 (length c) (skipn 8 c)) in *.
    pose proof (unsteps_good enc dec BC kek (length rs0) (rev (seq 1 (6 * length rs0))) (be_val (firstn 8 c), rs0) (conj eq_refl F)) as [L' F'].
    destruct (fold_left _ _ _) as [a rs]. cbn [snd] in *. destruct (a =? wrap_iv); [|discriminate]. intros H. injection H as <-.
    rewrite concat_length8, L' by assumption. lia.
  - intros kek c p Wc. unfold unwrap_of. destruct (_ && _) eqn:X; [|discriminate]. apply andb_true_iff in X as [M L]. apply Nat.eqb_eq in M. apply Nat.leb_le in L.
    destruct (blocks8_spec (length c) (skipn 8 c)) as (E & F & G & W); rewrite ?skipn_length; [lia|lia|]. specialize (W (wf_skipn 8 _ Wc)).
    set (rs0 := blocks8 (length c) (skipn 8 c)) in *.
    assert (A : be_val (firstn 8 c) < 2 ^ 64) by (apply be8_bound; [apply wf_firstn, Wc|rewrite firstn_length; lia]).
    pose proof (unsteps_wf enc dec BC kek (rev (seq 1 (6 * length rs0))) (be_val (firstn 8 c), rs0) (conj A W)) as [_ W'].
    destruct (fold_left _ _ _) as [a rs]. cbn [snd] in *. destruct (a =? wrap_iv); [|discriminate]. intros H. injection H as <-.
    apply concat_wf, W'.
Qed.
Theorem aes_key_wrap : key_wrap aes_wrap aes_unwrap.
Proof. apply wrap_key_wrap, aes_block_cipher. Qed.

(** ** SHA-1 *)
Lemma sha1_good m : length (sha1 m) = 20%nat /\ wf_bytes (sha1 m).
Proof.
  unfold sha1. destruct (blocks _ _ _) as [[[[a b] c] d] e]. split; [reflexivity|].
  rewrite !wf_bytes_app. repeat split; apply be_bytes_wf.
Qed.
Theorem hmac_sha1_ok : hmac_sha1 hmac_sha1_of.
Proof. split; intros key m; unfold hmac_sha1_of, hmac_with; apply sha1_good. Qed.
