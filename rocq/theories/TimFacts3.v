(** When iterating association IDs panics. *)
From Verif Require Import Base SpecBase Common Elements Tim SpecTim TimFacts TimFacts2 LookupFacts.

Section Facts.
Context {cfg : Cfg}.
Lemma aid_iter_panics ctl map : (ctl < 256)%N ->
  tb_aid_iter (mkTB ctl (Some (BSlice map))) = Panic <->
  overflow_checks = true /\ exists k, 1 <= k < 8 * length map /\ N.testbit (nth (k / 8) map 0%N) (N.of_nat (k mod 8)) = true /\
    (65535 < N.of_nat (8 * spec_n1 ctl) + N.of_nat k mod 65536)%N.
Proof.
  intros C. unfold tb_aid_iter. cbn [tb_bitmap tb_control bm_bytes rbind].
  match goal with |- context [filter_map_res ?f ?l] => pose proof (LookupFacts.filter_map_res_panic f l) as P; set (F := f) in *; set (L := l) in * end.
  assert (NE : forall a e, F a <> Err e). { intros a e. unfold F. destruct (N.testbit _ _); [|discriminate]. destruct (_ && _); discriminate. }
  specialize (P NE). transitivity (filter_map_res F L = Panic).
  { destruct (filter_map_res F L); cbn; split; congruence. }
  rewrite P. unfold F, L. split.
  - intros (k & I & Q). apply in_seq in I. destruct (N.testbit _ _) eqn:B; [|discriminate]. destruct overflow_checks; [|discriminate].
    cbn [andb] in Q. destruct (N.ltb_spec 65535 (tbc_n1 ctl * 8 + N.of_nat k mod 65536)); [|discriminate]. split; [reflexivity|]. exists k.
    split; [lia|]. split; [exact B|]. pose proof (tbc_n1_spec ctl C); lia.
  - intros (O & k & K & B & Q). exists k. split; [apply in_seq; lia|]. rewrite B, O. cbn [andb].
    destruct (N.ltb_spec 65535 (tbc_n1 ctl * 8 + N.of_nat k mod 65536)); [reflexivity|]. pose proof (tbc_n1_spec ctl C); lia.
Qed.
End Facts.
