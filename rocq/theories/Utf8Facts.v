(** The validity check accepts exactly the encodings of sequences of scalar values. *)
From Verif Require Import Base BaseFacts Utf8 SpecUtf8.
Local Open Scope N_scope.

Lemma is_utf8_nil : is_utf8 [].
Proof. now exists []. Qed.
Lemma is_utf8_cons c bs : scalar c -> is_utf8 bs -> is_utf8 (utf8_encode c ++ bs).
Proof. intros S (cs & F & ->). exists (c :: cs). split; [now constructor|reflexivity]. Qed.

Ltac enc_case := unfold utf8_encode;
  repeat match goal with |- context [if ?a <? ?b then _ else _] => destruct (N.ltb_spec a b); try lia end.
Lemma enc1 b : b < 0x80 -> utf8_encode b = [b].
Proof. intros. unfold utf8_encode. destruct (N.ltb_spec b 0x80); [reflexivity|lia]. Qed.
Lemma enc2 a b : a < 32 -> 2 <= a -> b < 64 -> utf8_encode (a * 64 + b) = [0xc0 + a; 0x80 + b].
Proof. intros. enc_case. repeat f_equal; lia. Qed.
Lemma enc3 a b c : a < 16 -> b < 64 -> c < 64 -> 0x800 <= a * 4096 + b * 64 + c ->
  utf8_encode (a * 4096 + b * 64 + c) = [0xe0 + a; 0x80 + b; 0x80 + c].
Proof.
  intros. enc_case.
  assert (E1 : (a * 4096 + b * 64 + c) / 4096 = a) by (symmetry; apply (N.div_unique _ _ _ (b * 64 + c)); lia).
  assert (E2 : (a * 4096 + b * 64 + c) / 64 = a * 64 + b) by (symmetry; apply (N.div_unique _ _ _ c); lia).
  assert (E3 : (a * 4096 + b * 64 + c) mod 64 = c) by (symmetry; apply (N.mod_unique _ _ (a * 64 + b)); lia).
  rewrite E1, E2, E3. assert (E4 : (a * 64 + b) mod 64 = b) by (symmetry; apply (N.mod_unique _ _ a); lia). now rewrite E4.
Qed.
Lemma enc4 a b c d : a < 8 -> b < 64 -> c < 64 -> d < 64 -> 0x10000 <= a * 262144 + b * 4096 + c * 64 + d ->
  utf8_encode (a * 262144 + b * 4096 + c * 64 + d) = [0xf0 + a; 0x80 + b; 0x80 + c; 0x80 + d].
Proof.
  intros. enc_case. set (x := a * 262144 + b * 4096 + c * 64 + d) in *.
  assert (E1 : x / 262144 = a) by (symmetry; apply (N.div_unique _ _ _ (b * 4096 + c * 64 + d)); lia).
  assert (E2 : x / 4096 = a * 64 + b) by (symmetry; apply (N.div_unique _ _ _ (c * 64 + d)); lia).
  assert (E3 : x / 64 = a * 4096 + b * 64 + c) by (symmetry; apply (N.div_unique _ _ _ d); lia).
  assert (E4 : x mod 64 = d) by (symmetry; apply (N.mod_unique _ _ (a * 4096 + b * 64 + c)); lia).
  rewrite E1, E2, E3, E4.
  assert (E5 : (a * 64 + b) mod 64 = b) by (symmetry; apply (N.mod_unique _ _ a); lia).
  assert (E6 : (a * 4096 + b * 64 + c) mod 64 = c) by (symmetry; apply (N.mod_unique _ _ (a * 64 + b)); lia).
  now rewrite E5, E6.
Qed.

Lemma in_range_spec lo hi b : in_range lo hi b = true <-> lo <= b <= hi.
Proof. unfold in_range. rewrite andb_true_iff, !N.leb_le. reflexivity. Qed.
Lemma cont_spec b : cont b = true <-> 0x80 <= b <= 0xbf.
Proof. apply in_range_spec. Qed.
Lemma off_add lo b : lo <= b -> b = lo + (b - lo).
Proof. lia. Qed.

Ltac nolia := idtac.
Lemma utf8_sound bs : utf8_valid bs = true -> is_utf8 bs.
Proof.
  remember (length bs) as n eqn:L. revert bs L.
  induction n as [n IH] using lt_wf_ind. intros [|b0 r0] L; [intros _; apply is_utf8_nil|].
  cbn [utf8_valid]. destruct (N.ltb_spec b0 0x80) as [H0|H0].
  { intros V. apply (IH (length r0)) in V; [|cbn [length] in L; lia|reflexivity].
    change (b0 :: r0) with ([b0] ++ r0). rewrite <- enc1 by auto. apply is_utf8_cons; auto. left. lia. }
  destruct r0 as [|b1 r1]; [discriminate|].
  destruct (in_range 0xc2 0xdf b0) eqn:R2.
  { apply in_range_spec in R2. rewrite andb_true_iff, cont_spec. intros [C1 V].
    apply (IH (length r1)) in V; [|cbn [length] in L; lia|reflexivity].
    assert (E : [b0; b1] = utf8_encode ((b0 - 0xc0) * 64 + (b1 - 0x80))) by (rewrite enc2 by lia; repeat f_equal; lia).
    change (b0 :: b1 :: r1) with ([b0; b1] ++ r1). rewrite E. apply is_utf8_cons; auto. left. lia. }
  destruct r1 as [|b2 r2]; [discriminate|].
  destruct (in_range 0xe0 0xef b0) eqn:R3.
  { apply in_range_spec in R3. rewrite !andb_true_iff, cont_spec. intros [[C1 C2] V].
    apply (IH (length r2)) in V; [|cbn [length] in L; lia|reflexivity].
    assert (C : 0x80 <= b1 <= 0xbf /\ (b0 = 0xe0 -> 0xa0 <= b1) /\ (b0 = 0xed -> b1 <= 0x9f)).
    { destruct (N.eqb_spec b0 0xe0); [|destruct (N.eqb_spec b0 0xed)]; unfold cont in C1; rewrite in_range_spec in C1; lia. }
    assert (E : [b0; b1; b2] = utf8_encode ((b0 - 0xe0) * 4096 + (b1 - 0x80) * 64 + (b2 - 0x80))) by (rewrite enc3 by lia; repeat f_equal; lia).
    change (b0 :: b1 :: b2 :: r2) with ([b0; b1; b2] ++ r2). rewrite E. apply is_utf8_cons; auto. unfold scalar. lia. }
  destruct r2 as [|b3 r3]; [discriminate|].
  rewrite !andb_true_iff, !cont_spec, in_range_spec. intros [[[[R4 C1] C2] C3] V].
  apply (IH (length r3)) in V; [|cbn [length] in L; lia|reflexivity].
  assert (C : 0x80 <= b1 <= 0xbf /\ (b0 = 0xf0 -> 0x90 <= b1) /\ (b0 = 0xf4 -> b1 <= 0x8f)).
  { destruct (N.eqb_spec b0 0xf0); [|destruct (N.eqb_spec b0 0xf4)]; unfold cont in C1; rewrite in_range_spec in C1; lia. }
  assert (E : [b0; b1; b2; b3] = utf8_encode ((b0 - 0xf0) * 262144 + (b1 - 0x80) * 4096 + (b2 - 0x80) * 64 + (b3 - 0x80))) by (rewrite enc4 by lia; repeat f_equal; lia).
  change (b0 :: b1 :: b2 :: b3 :: r3) with ([b0; b1; b2; b3] ++ r3). rewrite E. apply is_utf8_cons; auto. unfold scalar. lia.
Qed.

(** decomposition of a code point *)
Lemma dec2 c : 0x80 <= c < 0x800 -> exists a b, c = a * 64 + b /\ 2 <= a < 32 /\ b < 64.
Proof. exists (c / 64), (c mod 64). lia. Qed.
Lemma dec3 c : 0x800 <= c < 0x10000 -> exists a b d, c = a * 4096 + b * 64 + d /\ a < 16 /\ b < 64 /\ d < 64.
Proof.
  intros. exists (c / 64 / 64), (c / 64 mod 64), (c mod 64).
  assert (c = 64 * (c / 64) + c mod 64) by (apply N.div_mod; discriminate). lia.
Qed.
Lemma dec4 c : 0x10000 <= c < 0x110000 -> exists a b d e, c = a * 262144 + b * 4096 + d * 64 + e /\ a < 5 /\ b < 64 /\ d < 64 /\ e < 64.
Proof.
  intros. exists (c / 64 / 64 / 64), (c / 64 / 64 mod 64), (c / 64 mod 64), (c mod 64). lia.
Qed.
Ltac rng := repeat match goal with
  | |- context [in_range ?lo ?hi ?b] =>
      first [ rewrite (proj2 (in_range_spec lo hi b)) by lia
            | replace (in_range lo hi b) with false by (symmetry; apply not_true_is_false; rewrite in_range_spec; lia) ]
  | |- context [cont ?b] => rewrite (proj2 (cont_spec b)) by lia
  | |- context [?a <? ?b] => destruct (N.ltb_spec a b); [lia|]
  | |- context [?a =? ?b] => destruct (N.eqb_spec a b)
  end.
Lemma utf8_valid_encode c bs : scalar c -> utf8_valid (utf8_encode c ++ bs) = utf8_valid bs.
Proof.
  intros S. destruct (N.lt_ge_cases c 0x80).
  { rewrite enc1 by auto. cbn [app utf8_valid]. destruct (N.ltb_spec c 0x80); [reflexivity|lia]. }
  destruct (N.lt_ge_cases c 0x800).
  { destruct (dec2 c) as (a & b & -> & Ha & Hb); [lia|]. rewrite enc2 by lia. cbn [app utf8_valid]. rng. reflexivity. }
  destruct (N.lt_ge_cases c 0x10000).
  { destruct (dec3 c) as (a & b & d & -> & Ha & Hb & Hd); [lia|]. rewrite enc3 by lia. cbn [app utf8_valid].
    unfold scalar in S. rng; reflexivity. }
  destruct (dec4 c) as (a & b & d & e & -> & Ha & Hb & Hd & He); [unfold scalar in S; lia|]. rewrite enc4 by lia. cbn [app utf8_valid].
  unfold scalar in S. rng; reflexivity.
Qed.
Lemma utf8_spec bs : utf8_valid bs = true <-> is_utf8 bs.
Proof.
  split; [apply utf8_sound|]. intros (cs & F & ->). induction F as [|c cs S F IH]; [reflexivity|].
  cbn [map concat]. now rewrite utf8_valid_encode.
Qed.
