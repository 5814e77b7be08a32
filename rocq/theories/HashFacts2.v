(** Proofs: what the hasher gets for a TIM element tells where it ends. *)
From Verif Require Import Base SpecBase BaseFacts CommonFacts Tim Hashes SpecHash2 KeyMgmtFacts4.

Section F.
Context {cfg : Cfg} (w : nat).
Lemma ne_inj n m : fits_usize w n -> fits_usize w m -> ne_bytes w (N.of_nat n) = ne_bytes w (N.of_nat m) -> n = m.
Proof.
  unfold fits_usize, ne_bytes. intros A B E. apply Nnat.Nat2N.inj. destruct native_le.
  - rewrite <- (le_val_bytes_small w (N.of_nat n) A), <- (le_val_bytes_small w (N.of_nat m) B). now rewrite E.
  - rewrite <- (be_val_bytes_small w (N.of_nat n) A), <- (be_val_bytes_small w (N.of_nat m) B). now rewrite E.
Qed.
Lemma ne_len n : length (ne_bytes w n) = w. Proof. apply ne_bytes_length. Qed.
Lemma number_inj n m x y : fits_usize w n -> fits_usize w m -> ne_bytes w (N.of_nat n) ++ x = ne_bytes w (N.of_nat m) ++ y -> n = m /\ x = y.
Proof. intros A B E. apply app_inj_len in E as [E1 E2]; [|now rewrite !ne_len]. split; [now apply ne_inj|exact E2]. Qed.
Lemma slice_inj bs bs' x y : fits_usize w (length bs) -> fits_usize w (length bs') ->
  ne_bytes w (N.of_nat (length bs)) ++ bs ++ x = ne_bytes w (N.of_nat (length bs')) ++ bs' ++ y -> bs = bs' /\ x = y.
Proof. intros A B E. apply number_inj in E as [L E]; [|assumption..]. now apply app_inj_len in E. Qed.
Lemma small_fits n : (1 <= w)%nat -> n < 2 -> fits_usize w n.
Proof.
  intros A B. unfold fits_usize. apply N.lt_le_trans with (256 ^ 1)%N; [change (256 ^ 1)%N with 256%N; lia|]. apply N.pow_le_mono_r; lia.
Qed.
Theorem prefix_free a b x y : same_type (te_bitmap a) (te_bitmap b) -> numbers_fit w a -> numbers_fit w b ->
  hash_stream w (feed_tim a) ++ x = hash_stream w (feed_tim b) ++ y -> a = b /\ x = y.
Proof.
  destruct a as [c p o], b as [c' p' o']. unfold numbers_fit, hash_stream, feed_tim. cbn [te_count te_period te_bitmap app map concat fed_bytes].
  fold (ne_bytes w 0). intros T [W FA] [_ FB] E. injection E as -> -> E.
  pose proof (small_fits 0 W ltac:(lia)) as F0. pose proof (small_fits 1 W ltac:(lia)) as F1.
  assert (P : forall n m x y, fits_usize w n -> fits_usize w m -> (ne_bytes w (N.of_nat n) ++ x = ne_bytes w (N.of_nat m) ++ y) -> n = m /\ x = y) by (intros; now apply number_inj).
  destruct o as [[k q]|], o' as [[k' q']|]; cbn [feed_option map concat fed_bytes] in E; rewrite <- ?app_assoc in E;
    apply P in E as [X E]; auto; try discriminate X.
  cbn [feed_tim_bitmap feed_option map concat fed_bytes tb_control tb_bitmap app] in E. unfold feed_tim_bitmap in E. cbn [map concat fed_bytes tb_control tb_bitmap app] in E. injection E as -> E.
  destruct q as [m|], q' as [m'|]; cbn [feed_option map concat fed_bytes] in E; rewrite <- ?app_assoc in E;
    apply P in E as [Y E]; auto; try discriminate Y.
  cbn [same_type] in T. destruct m as [bs|ar n|ar n1 n2], m' as [bs'|ar' n'|ar' n1' n2']; try contradiction; cbn [feed_bitmap feed_slice map concat fed_bytes app] in E; rewrite <- ?app_assoc in E; cbn [app] in E.
  - apply slice_inj in E as [-> ->]; auto.
  - destruct FA, FB. apply slice_inj in E as [-> E]; auto. apply number_inj in E as [-> ->]; auto.
  - destruct FA as (A1 & A2 & A3), FB as (B1 & B2 & B3). apply slice_inj in E as [-> E]; auto. apply number_inj in E as [-> E]; auto. apply number_inj in E as [-> ->]; auto.
Qed.
End F.
