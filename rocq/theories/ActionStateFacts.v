(** Facts about ActionState.v. *)
From Verif Require Import Base SpecBase BaseFacts Enums EnumsFacts Elements ElementsFacts SpecElementTypes ElementTypesFacts StepsFacts Mgmt SpecMgmt MgmtFacts MgmtFacts2 MgmtFacts3 ActionState.

Section F.
Context {cfg : Cfg}.
Lemma strip_state_result oui buf off :
  match strip_state oui buf off with
  | (Ok _, o) => strip_and_check_vendor_action_header oui buf off = Ok o
  | (Err e, _) => strip_and_check_vendor_action_header oui buf off = Err e
  | (Panic, _) => strip_and_check_vendor_action_header oui buf off = Panic
  end.
Proof.
  unfold strip_state, strip_and_check_vendor_action_header. destruct (gread rd_u8 buf off) as [[c o]| |]; cbn [rbind]; try reflexivity.
  destruct (negb _); [reflexivity|]. destruct (gread _ _ _) as [[x o']| |]; cbn [rbind]; try reflexivity. destruct (negb _); reflexivity.
Qed.
Lemma strip_state_offset oui (p rest : bytes) : snd (strip_state oui (p ++ rest) (length p)) = length p + match rest with [] => 0 | c :: more => if ((c =? 127)%N && (3 <=? length more))%bool then 4 else 1 end.
Proof.
  unfold strip_state. destruct rest as [|b rest].
  - rewrite app_nil_r. unfold gread at 1. destruct (end_bad (length p) (length p)); cbn [snd]; [lia|]. rewrite skipn_all. cbn. lia.
  - assert (A : At (p ++ [b] ++ rest) (length p) ([b] ++ rest)) by now apply At_app.
    change (p ++ b :: rest) with (p ++ [b] ++ rest). rewrite (gread_step _ _ _ _ _ _ A (rd_u8_R b)) by discriminate. cbn [length].
    rewrite (category_is b Cat_VendorSpecific eq_refl). change (category_into_bits Cat_VendorSpecific) with 127%N.
    destruct (N.eqb_spec b 127) as [->|N0]; cbn [negb andb snd]; [|reflexivity].
    apply At_step in A. cbn [length] in A.
    destruct (Nat.leb_spec 3 (length rest)) as [L|L].
    + assert (A' : At (p ++ [127%N] ++ rest) (length p + 1) (firstn 3 rest ++ skipn 3 rest)) by (rewrite firstn_skipn; exact A).
      rewrite (gread_step _ _ _ _ _ _ A' (rd_bytes_R (firstn 3 rest) 3 ltac:(rewrite firstn_length; lia))).
      * cbn [snd]. rewrite firstn_length. lia.
      * intros E. apply (f_equal (@length _)) in E. rewrite firstn_length in E. cbn [length] in E. lia.
    + destruct (gread (rd_bytes 3) _ (length p + 1)) as [[x o]|e|] eqn:G; cbn [snd]; [exfalso| |]; try reflexivity.
      apply gread_inv in G as (_ & k & G & ->). destruct A as [A _]. rewrite A in G.
      apply rd_bytes_inv in G as (_ & q & E & Lx). subst rest. rewrite app_length in L. lia.
Qed.
(** The next attempt looks behind the header: it finds another header there or nothing. *)
Lemma strip_again oui oui' (p : bytes) x more : length oui = 3 -> length x = 3 -> x <> oui ->
  let buf := p ++ 127%N :: x ++ more in
  let '(r, off) := strip_state oui buf (length p) in
  r = Err BadInput /\ off = length p + 4 /\ strip_state oui' buf off = strip_state oui' ((p ++ 127%N :: x) ++ more) (length (p ++ 127%N :: x)).
Proof.
  intros L Lx NE. cbv zeta. pose proof (strip_state_offset oui p (127%N :: x ++ more)) as O.
  cbv beta iota in O. rewrite app_length in O. replace (3 <=? length x + length more) with true in O by (symmetry; apply Nat.leb_le; lia). cbn [N.eqb Pos.eqb andb] in O.
  assert (R : fst (strip_state oui (p ++ 127%N :: x ++ more) (length p)) = Err BadInput).
  { unfold strip_state. assert (A : At (p ++ [127%N] ++ x ++ more) (length p) ([127%N] ++ x ++ more)) by now apply At_app.
    change (p ++ 127%N :: x ++ more) with (p ++ [127%N] ++ x ++ more). rewrite (gread_step _ _ _ _ _ _ A (rd_u8_R 127)) by discriminate. cbn [length].
    change (negb (category_eqb (category_from_bits 127) Cat_VendorSpecific)) with false. cbv iota.
    apply At_step in A. cbn [length] in A. rewrite (gread_step _ _ _ _ _ _ A (rd_bytes_R x 3 (eq_sym Lx))) by (intros ->; discriminate).
    cbn [fst]. destruct (arr_eqb_spec x oui); [contradiction|reflexivity]. }
  destruct (strip_state oui _ _) as [r off]. cbn [fst snd] in R, O. split; [exact R|]. split; [exact O|]. subst off.
  rewrite app_length. cbn [length]. rewrite Lx, <- app_assoc. reflexivity.
Qed.
Lemma append_state_result oui buf off :
  match append_state oui buf off with
  | (Ok _, b, o) => append_vendor_action_header oui buf off = Ok (b, o)
  | (Err e, _, _) => append_vendor_action_header oui buf off = Err e
  | (Panic, _, _) => append_vendor_action_header oui buf off = Panic
  end.
Proof.
  unfold append_state, append_vendor_action_header. cbn [wseq_from]. destruct (gwrite _ buf off) as [[b o]| |]; cbn [rbind]; try reflexivity.
  destruct (gwrite _ b o) as [[b' o']| |]; reflexivity.
Qed.
Lemma append_state_short oui (p rest : bytes) : length oui = 3 -> length rest < 4 ->
  exists e, append_state oui (p ++ rest) (length p) =
    match rest with [] => (Err e, p, length p) | _ :: more => (Err e, p ++ 127%N :: more, length p + 1) end.
Proof.
  intros L H. unfold append_state. change (wr_u8 (category_into_bits Cat_VendorSpecific)) with (wr_bytes [127%N]). destruct rest as [|c more].
  - rewrite app_nil_r. unfold gwrite at 1. destruct (end_bad _ _); [eexists; reflexivity|]. rewrite skipn_all. eexists. reflexivity.
  - unfold gwrite at 1. rewrite end_bad_lt by (rewrite app_length; cbn; lia). rewrite skipn_app_exact by reflexivity. cbn [wr_bytes length Nat.ltb Nat.leb app skipn].
    rewrite firstn_app_exact by reflexivity. unfold gwrite. destruct (end_bad _ _); [eexists; reflexivity|].
    replace (skipn (length p + 1) (p ++ 127%N :: more)) with more.
    + unfold wr_bytes. destruct (Nat.ltb_spec (length more) (length oui)) as [X|X]; [eexists; reflexivity|]. cbn in H. lia.
    + rewrite <- skipn_skipn_add, skipn_app_exact by reflexivity. reflexivity.
Qed.
End F.
Lemma strip_failed_refuted {cfg : Cfg} : ~ (forall oui buf off e o, length oui = 3 -> strip_state oui buf off = (Err e, o) -> o = off).
Proof.
  intros F. assert (D : strip_state [1; 2; 4]%N [127; 1; 2; 3; 8]%N 0 = (Err BadInput, 4)) by (destruct cfg as [[] [] []]; reflexivity).
  discriminate (F [1; 2; 4]%N _ _ _ _ eq_refl D).
Qed.
Lemma strip_first_refuted {cfg : Cfg} : ~ (forall ouis (oui p more : bytes), Forall (fun x => length x = 3) ouis -> In oui ouis ->
  fst (strip_first ouis (p ++ 127%N :: oui ++ more) (length p)) = Some oui).
Proof.
  intros F. assert (D : fst (strip_first [[1; 2; 4]; [1; 2; 3]]%N [127; 1; 2; 3; 8]%N 0) = None) by (destruct cfg as [[] [] []]; reflexivity).
  specialize (F [[1; 2; 4]; [1; 2; 3]]%N [1; 2; 3]%N [] [8]%N ltac:(repeat constructor) ltac:(right; left; reflexivity)). cbn [app length] in F. congruence.
Qed.
