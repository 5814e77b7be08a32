(** The Michael MIC is the one of the standard and never maps two keys, or two messages that differ
    in one word, to the same value. *)
From Verif Require Import Base BaseFacts BitsFacts Michael SpecMichael MichaelFacts.
Local Open Scope N_scope.

Lemma le_val_app a b : le_val (a ++ b) = le_val a + 256 ^ N.of_nat (length a) * le_val b.
Proof.
  induction a as [|x a IH]; cbn [le_val app length]; [now rewrite N.mul_1_l|]. rewrite IH, pow256_succ. lia.
Qed.
Lemma be_val_app a b : be_val (a ++ b) = be_val b + 256 ^ N.of_nat (length b) * be_val a.
Proof. unfold be_val. rewrite rev_app_distr, le_val_app, rev_length. reflexivity. Qed.
Lemma be_val_inj a b : wf_bytes a -> wf_bytes b -> length a = length b -> be_val a = be_val b -> a = b.
Proof. intros Fa Fb L E. rewrite <- (be_bytes_val a Fa), <- (be_bytes_val b Fb), L, E. reflexivity. Qed.
Lemma le_val_inj a b : wf_bytes a -> wf_bytes b -> length a = length b -> le_val a = le_val b -> a = b.
Proof. intros Fa Fb L E. rewrite <- (le_bytes_val a Fa), <- (le_bytes_val b Fb), L, E. reflexivity. Qed.
Lemma app_split {A} n (l : list A) : firstn n l ++ skipn n l = l. Proof. apply firstn_skipn. Qed.

Section Cfg.
Context {cfg : Cfg}.
Lemma to_be_octets w : native_le = true -> wf_bytes w -> length w = 4%nat -> u32_to_be (be_val w) = le_val w.
Proof.
  intros E F L. unfold u32_to_be. rewrite E. unfold be_val at 2. rewrite <- L.
  rewrite <- (rev_length w), le_bytes_val by now apply wf_rev. unfold be_val. now rewrite rev_involutive.
Qed.
Lemma initial_octets kb : native_le = true -> wf_bytes kb -> length kb = 8%nat ->
  initial (be_val kb) = (le_val (firstn 4 kb), le_val (skipn 4 kb)).
Proof.
  intros E F L. unfold initial.
  assert (La : length (firstn 4 kb) = 4%nat) by (rewrite firstn_length; lia).
  assert (Lb : length (skipn 4 kb) = 4%nat) by (rewrite skipn_length; lia).
  assert (Fa := wf_firstn 4 _ F). assert (Fb := wf_skipn 4 _ F).
  assert (Ba := be_val_bound _ Fa). assert (Bb := be_val_bound _ Fb). rewrite La in Ba. rewrite Lb in Bb.
  change (256 ^ N.of_nat 4) with (2 ^ 32) in Ba, Bb.
  rewrite <- (app_split 4 kb) at 1 2. rewrite be_val_app, Lb. change (256 ^ N.of_nat 4) with (2 ^ 32).
  rewrite N.shiftr_div_pow2, (N.add_comm (be_val (skipn 4 kb))), (N.mul_comm (2 ^ 32)).
  rewrite N.div_add_l, (N.div_small _ _ Bb), N.add_0_r, (N.mod_small _ _ Ba) by discriminate.
  rewrite (N.add_comm _ (be_val (skipn 4 kb))), N.mod_add, (N.mod_small _ _ Bb) by discriminate.
  now rewrite !to_be_octets.
Qed.
Lemma michael_standard {E} kb m : native_le = true -> wf_bytes kb -> length kb = 8%nat -> wf_bytes m ->
  @michael _ E (be_val kb) m = Ok (be_val (michael_mic kb m)).
Proof.
  intros N F L W. rewrite michael_spec_words, initial_octets by assumption. unfold michael_mic.
  destruct (michael_words _ _). reflexivity.
Qed.
Lemma michael_total {E} key m : wf_bytes m -> exists mic, @michael _ E key m = Ok mic /\ mic < 2 ^ 64.
Proof.
  intros F. rewrite michael_spec_words by assumption. destruct (michael_words _ _) as [l r]. eexists. split; [reflexivity|].
  change (2 ^ 64) with (256 ^ N.of_nat 8). replace 8%nat with (length (le_bytes 4 l ++ le_bytes 4 r)) by (rewrite app_length, !le_bytes_length; reflexivity).
  apply be_val_bound. apply wf_bytes_app. split; apply le_bytes_wf.
Qed.
Lemma out_inj l r l' r' : u32 l -> u32 r -> u32 l' -> u32 r' ->
  be_val (le_bytes 4 l ++ le_bytes 4 r) = be_val (le_bytes 4 l' ++ le_bytes 4 r') -> (l, r) = (l', r').
Proof.
  intros Hl Hr Hl' Hr' E. apply be_val_inj in E.
  - assert (A := f_equal (firstn 4) E). assert (B := f_equal (skipn 4) E).
    rewrite !firstn_app_exact in A by now rewrite le_bytes_length. rewrite !skipn_app_exact in B by now rewrite le_bytes_length.
    apply le_bytes_inj in A; [|assumption|assumption]. apply le_bytes_inj in B; [|assumption|assumption]. now subst.
  - apply wf_bytes_app. split; apply le_bytes_wf.
  - apply wf_bytes_app. split; apply le_bytes_wf.
  - now rewrite !app_length, !le_bytes_length.
Qed.
Lemma words_state_inj ws : Forall u32 ws -> forall s t, u32s s -> u32s t -> michael_words s ws = michael_words t ws -> s = t.
Proof.
  induction ws as [|w ws IH]; intros F [sl sr] [tl tr] [Hsl Hsr] [Htl Htr] E; [exact E|]. inversion_clear F as [|? ? Fw Fs].
  cbn [fst snd] in *. unfold michael_words in E. cbn [fold_left fst snd] in E.
  apply (IH Fs) in E.
  - apply block_injective in E; [|split; [apply lxor_u32|]; assumption|split; [apply lxor_u32|]; assumption].
    injection E as El Er. subst. f_equal.
    assert (X := f_equal (fun x => N.lxor x w) El). cbv beta in X. now rewrite !N.lxor_assoc, N.lxor_nilpotent, !N.lxor_0_r in X.
  - apply block_bound; split; [apply lxor_u32|]; assumption.
  - apply block_bound; split; [apply lxor_u32|]; assumption.
Qed.
Lemma to_be_inj x y : u32 x -> u32 y -> u32_to_be x = u32_to_be y -> x = y.
Proof.
  unfold u32_to_be. intros Hx Hy. destruct native_le; [|auto]. intros E.
  apply be_val_inj in E; [|apply le_bytes_wf|apply le_bytes_wf|now rewrite !le_bytes_length].
  now apply le_bytes_inj in E.
Qed.
Lemma initial_inj k1 k2 : k1 < 2 ^ 64 -> k2 < 2 ^ 64 -> initial k1 = initial k2 -> k1 = k2.
Proof.
  intros H1 H2 E. unfold initial in E. assert (A := f_equal fst E). assert (B := f_equal snd E). cbn [fst snd] in A, B.
  apply to_be_inj in A; [|apply N.mod_lt; discriminate|apply N.mod_lt; discriminate].
  apply to_be_inj in B; [|apply N.mod_lt; discriminate|apply N.mod_lt; discriminate].
  rewrite !N.shiftr_div_pow2 in A. rewrite pow32 in A, B. change (2 ^ 64) with (18446744073709551616) in H1, H2. lia.
Qed.
Lemma michael_key_injective {E} k1 k2 m : wf_bytes m -> k1 < 2 ^ 64 -> k2 < 2 ^ 64 ->
  @michael _ E k1 m = michael k2 m -> k1 = k2.
Proof.
  intros F H1 H2. rewrite !michael_spec_words by assumption.
  assert (W := words_wf _ _ (padded_length m) (padded_wf _ F)).
  assert (B1 := michael_words_bound _ _ (initial_bound k1) W). assert (B2 := michael_words_bound _ _ (initial_bound k2) W).
  destruct (michael_words (initial k1) _) as [l r] eqn:E1. destruct (michael_words (initial k2) _) as [l' r'] eqn:E2. intros X. injection X as X.
  destruct B1, B2. apply out_inj in X; [|assumption..]. rewrite <- E1, <- E2 in X.
  apply words_state_inj in X; [|assumption|apply initial_bound|apply initial_bound]. now apply initial_inj.
Qed.
(** lists of equal length that agree but at one place *)
Lemma differ_once {A} (d : A) : forall l1 l2 i, length l1 = length l2 -> (forall j, j <> i -> nth j l1 d = nth j l2 d) ->
  l1 = l2 \/ exists p a b t, l1 = p ++ a :: t /\ l2 = p ++ b :: t.
Proof.
  induction l1 as [|x l1 IH]; intros [|y l2] i L H; try discriminate; [now left|]. injection L as L.
  destruct i as [|i].
  - right. exists [], x, y, l1. split; [reflexivity|]. cbn [app]. f_equal. symmetry. apply (nth_ext _ _ d d); [assumption|].
    intros n _. exact (H (S n) ltac:(discriminate)).
  - assert (E := H 0%nat ltac:(discriminate)). cbn [nth] in E. subst y.
    destruct (IH l2 i L) as [->|(p & a & b & t & -> & ->)].
    + intros j J. apply (H (S j)). congruence.
    + now left.
    + right. exists (x :: p), a, b, t. split; reflexivity.
Qed.
Lemma one_word p a b t s : u32s s -> Forall u32 p -> u32 a -> u32 b -> Forall u32 t ->
  michael_words s (p ++ a :: t) = michael_words s (p ++ b :: t) -> a = b.
Proof.
  intros Hs Fp Fa Fb Ft. unfold michael_words. rewrite !fold_left_app. cbn [fold_left].
  assert (B := michael_words_bound p s Hs Fp). unfold michael_words in B. destruct (fold_left _ p s) as [l r]. destruct B as [Bl Br]. cbn [fst snd] in *.
  intros E. apply (words_state_inj t Ft) in E.
  - apply block_injective in E; [|split; [apply lxor_u32|]; assumption|split; [apply lxor_u32|]; assumption].
    injection E as E. assert (X := f_equal (N.lxor l) E).
    now rewrite <- !N.lxor_assoc, N.lxor_nilpotent, !N.lxor_0_l in X.
  - apply block_bound; split; [apply lxor_u32|]; assumption.
  - apply block_bound; split; [apply lxor_u32|]; assumption.
Qed.
Lemma words_inj : forall n a b, length a = (4 * n)%nat -> length b = (4 * n)%nat -> wf_bytes a -> wf_bytes b -> words a = words b -> a = b.
Proof.
  induction n as [|n IH]; intros a b La Lb Fa Fb E.
  - destruct a, b; try discriminate; reflexivity.
  - destruct a as [|a0 [|a1 [|a2 [|a3 a]]]]; cbn [length] in La; try lia.
    destruct b as [|b0 [|b1 [|b2 [|b3 b]]]]; cbn [length] in Lb; try lia.
    cbn [words] in E. pose proof (f_equal (hd 0) E) as E0. pose proof (f_equal (@tl N) E) as E1. cbn [hd tl] in E0, E1.
    apply le_val_inj in E0; [|now apply (wf_firstn 4) in Fa|now apply (wf_firstn 4) in Fb|reflexivity].
    apply IH in E1; [congruence|lia|lia|now apply (wf_skipn 4) in Fa|now apply (wf_skipn 4) in Fb].
Qed.
Lemma nth_words m n : length m = (4 * n)%nat -> forall j, (j < n)%nat -> nth j (words m) 0 = le_val (firstn 4 (skipn (4 * j) m)).
Proof.
  intros L j J. rewrite (words_map n _ L).
  rewrite (nth_indep _ 0 ((fun j => le_val (firstn 4 (skipn (4 * j) m))) 0%nat)) by (rewrite map_length, seq_length; exact J).
  rewrite (map_nth (fun j => le_val (firstn 4 (skipn (4 * j) m)))), seq_nth by assumption. reflexivity.
Qed.
Lemma words_length m n : length m = (4 * n)%nat -> length (words m) = n.
Proof. intros L. now rewrite (words_map n _ L), map_length, seq_length. Qed.
Lemma nth_error_nth' (a b : bytes) i : length a = length b -> (i < length a)%nat -> nth i a 0 = nth i b 0 -> nth_error a i = nth_error b i.
Proof. intros L I E. rewrite (nth_error_nth' a 0 I), (nth_error_nth' b 0) by lia. now rewrite E. Qed.
Lemma nth_firstn_skipn (l : bytes) k n i : (i < n)%nat -> nth i (firstn n (skipn k l)) 0 = nth (k + i) l 0.
Proof.
  revert l. induction k as [|k IH]; intros l H.
  - cbn [skipn]. rewrite Nat.add_0_l. revert n H l. induction i as [|i IH]; intros [|n] H l; try lia; destruct l; cbn [firstn nth]; auto. apply IH. lia.
  - destruct l as [|x l]; cbn [skipn]; [destruct n; [lia|]; cbn; now destruct i|]. cbn [Nat.add nth]. now apply IH.
Qed.
Lemma michael_one_word {E} key m1 m2 i : wf_bytes m1 -> wf_bytes m2 -> length m1 = length m2 ->
  (forall j, (j / 4)%nat <> i -> nth j m1 0 = nth j m2 0) ->
  @michael _ E key m1 = michael key m2 -> m1 = m2.
Proof.
  intros F1 F2 L H. rewrite !michael_spec_words by assumption.
  assert (P1 := padded_length m1). assert (P2 := padded_length m2). rewrite <- L in P2.
  assert (G1 := padded_wf _ F1). assert (G2 := padded_wf _ F2).
  assert (W1 := words_wf _ _ P1 G1). assert (W2 := words_wf _ _ P2 G2).
  assert (B1 := michael_words_bound _ _ (initial_bound key) W1). assert (B2 := michael_words_bound _ _ (initial_bound key) W2).
  destruct (michael_words (initial key) (words (padded m1))) as [l r] eqn:E1. destruct (michael_words (initial key) (words (padded m2))) as [l' r'] eqn:E2.
  intros X. injection X as X. destruct B1, B2. apply out_inj in X; [|assumption..]. rewrite <- E1, <- E2 in X.
  assert (Q : words (padded m1) = words (padded m2)).
  { destruct (differ_once 0 (words (padded m1)) (words (padded m2)) i) as [Q|(p & a & b & t & Qa & Qb)].
    - now rewrite (words_length _ _ P1), (words_length _ _ P2).
    - intros j J. destruct (Nat.lt_ge_cases j (length m1 / 4 + 2)) as [T|T].
      + rewrite (nth_words _ _ P1), (nth_words _ _ P2) by assumption. f_equal.
        apply (nth_ext _ _ 0 0).
        * rewrite !firstn_length, !skipn_length, P1, P2. reflexivity.
        * intros q Hq. rewrite firstn_length in Hq. rewrite !nth_firstn_skipn by lia.
          unfold padded. destruct (Nat.lt_ge_cases (4 * j + q) (length m1)) as [U|U].
          -- rewrite !app_nth1 by lia. apply H. replace ((4 * j + q) / 4)%nat with j by lia. assumption.
          -- rewrite !app_nth2 by lia. rewrite L. reflexivity.
      + rewrite !nth_overflow; [reflexivity| |].
        * now rewrite (words_length _ _ P2).
        * now rewrite (words_length _ _ P1).
    - exact Q.
    - rewrite Qa, Qb in X. rewrite Qa in W1. rewrite Qb in W2. rewrite Qa, Qb. apply Forall_app in W1 as [Wp W1]. inversion_clear W1 as [|? ? Wa Wt].
      apply Forall_app in W2 as [_ W2]. inversion_clear W2 as [|? ? Wb _].
      apply one_word in X; [now subst|apply initial_bound|assumption..]. }
  apply (words_inj _ _ _ P1 P2 G1 G2) in Q. unfold padded in Q.
  apply (f_equal (firstn (length m1))) in Q. rewrite firstn_app_exact in Q by reflexivity. now rewrite firstn_app_exact in Q by exact L.
Qed.
End Cfg.
Definition be_cfg : Cfg := {| strict_end := false; native_le := false; overflow_checks := true |}.
Lemma michael_big_endian : exists (cfg : Cfg) kb m, native_le = false /\ wf_bytes kb /\ length kb = 8%nat /\ wf_bytes m /\
  @michael _ unit (be_val kb) m <> Ok (be_val (michael_mic kb m)).
Proof.
  exists be_cfg, [0x82; 0x92; 0x5c; 0x1c; 0xa1; 0xd1; 0x30; 0xb8], [0x4d].
  repeat split; try (repeat constructor; fail). vm_compute. discriminate.
Qed.
(** On big-endian targets the code is the function of the standard for the key with the octets of each half reversed. *)
Lemma initial_octets_be {cfg : Cfg} kb : native_le = false -> wf_bytes kb -> length kb = 8%nat ->
  initial (be_val kb) = (le_val (rev (firstn 4 kb)), le_val (rev (skipn 4 kb))).
Proof.
  intros E F L. unfold initial.
  assert (La : length (firstn 4 kb) = 4%nat) by (rewrite firstn_length; lia).
  assert (Lb : length (skipn 4 kb) = 4%nat) by (rewrite skipn_length; lia).
  assert (Fa := wf_firstn 4 _ F). assert (Fb := wf_skipn 4 _ F).
  assert (Ba := be_val_bound _ Fa). assert (Bb := be_val_bound _ Fb). rewrite La in Ba. rewrite Lb in Bb.
  change (256 ^ N.of_nat 4) with (2 ^ 32) in Ba, Bb.
  rewrite <- (app_split 4 kb) at 1 2. rewrite be_val_app, Lb. change (256 ^ N.of_nat 4) with (2 ^ 32).
  rewrite N.shiftr_div_pow2, (N.add_comm (be_val (skipn 4 kb))), (N.mul_comm (2 ^ 32)).
  rewrite N.div_add_l, (N.div_small _ _ Bb), N.add_0_r, (N.mod_small _ _ Ba) by discriminate.
  rewrite (N.add_comm _ (be_val (skipn 4 kb))), N.mod_add, (N.mod_small _ _ Bb) by discriminate.
  unfold u32_to_be. now rewrite E.
Qed.
Lemma michael_be_exact {cfg : Cfg} {E} kb m : native_le = false -> wf_bytes kb -> length kb = 8%nat -> wf_bytes m ->
  @michael _ E (be_val kb) m = Ok (be_val (michael_mic (halves_reversed kb) m)).
Proof.
  intros N F L W. rewrite michael_spec_words, initial_octets_be by assumption. unfold michael_mic, halves_reversed.
  rewrite firstn_app_exact, skipn_app_exact by (rewrite rev_length, firstn_length; lia).
  destruct (michael_words _ _). reflexivity.
Qed.
Lemma halves_reversed_wf kb : wf_bytes kb -> wf_bytes (halves_reversed kb).
Proof. intros F. unfold halves_reversed. apply wf_bytes_app. split; apply wf_rev; [now apply wf_firstn|now apply wf_skipn]. Qed.
Lemma halves_reversed_length kb : length (halves_reversed kb) = length kb.
Proof. unfold halves_reversed. rewrite app_length, !rev_length, <- app_length, app_split. reflexivity. Qed.
Lemma michael_be_wrong {cfg : Cfg} {E} kb m : native_le = false -> wf_bytes kb -> length kb = 8%nat -> wf_bytes m ->
  (@michael _ E (be_val kb) m = Ok (be_val (michael_mic kb m)) <-> halves_reversed kb = kb).
Proof.
  intros N F L W. rewrite michael_be_exact by assumption. split; [|intros ->; reflexivity]. intros X.
  pose (le := {| strict_end := true; native_le := true; overflow_checks := true |}).
  assert (LE : @native_le le = true) by reflexivity.
  rewrite <- (@michael_standard le E kb m) in X by assumption.
  rewrite <- (@michael_standard le E (halves_reversed kb) m) in X; [|assumption|now apply halves_reversed_wf|now rewrite halves_reversed_length|assumption].
  apply michael_key_injective in X; [|assumption| |].
  - apply be_val_inj in X; [exact X|now apply halves_reversed_wf|assumption|apply halves_reversed_length].
  - pose proof (be_val_bound _ (halves_reversed_wf kb F)) as B. rewrite halves_reversed_length, L in B. exact B.
  - pose proof (be_val_bound _ F) as B. rewrite L in B. exact B.
Qed.
