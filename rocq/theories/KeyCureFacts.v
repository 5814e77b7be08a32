(** Proofs about key frames that are cut short (C75). *)
From Verif Require Import Base SpecBase BaseFacts Common Elements Rsn Eapol SpecEapol KeyMgmt SpecKeyMgmt SpecErrors ReceiveFacts SpecElements ElementsFacts.
Lemma skipn_nth (p : bytes) a : a < length p -> skipn a p = nth a p 0%N :: skipn (S a) p.
Proof.
  revert a. induction p as [|x p IH]; intros [|a] H; cbn in *; try lia; [reflexivity|]. rewrite (IH a) by lia. reflexivity.
Qed.
Lemma pair_between p a : a + 2 <= length p -> between_bytes p a (a + 2) = [nth a p 0; nth (a + 1) p 0]%N.
Proof.
  intros L. unfold between_bytes. replace (a + 2 - a) with 2 by lia.
  rewrite (skipn_nth p a), (skipn_nth p (S a)) by lia. cbn [firstn]. now replace (a + 1) with (S a) by lia.
Qed.
Lemma be_pair a b : (a < 256)%N -> (b < 256)%N -> be_bytes 2 (be_val [a; b]) = [a; b].
Proof. intros A B. apply (be_bytes_val [a; b]). repeat constructor; assumption. Qed.
Lemma wf_nth p i : wf_bytes p -> (nth i p 0 < 256)%N.
Proof. intros W. destruct (nth_in_or_default i p 0%N) as [I| ->]; [|lia]. now apply (proj1 (Forall_forall _ _) W). Qed.
Lemma so_far_front bs more off x : (forall i, i < length x -> nth (off + i) (bs ++ more) 0%N = nth i x 0%N) -> so_far bs off x.
Proof. intros H i Hi L. rewrite <- H by exact Hi. now rewrite app_nth1. Qed.

Lemma complete_iff strict m p : key_frame_complete strict m p = true <->
  83 + m <= length p /\
  (let len := be_val [nth 2 p 0; nth 3 p 0]%N in let dl := be_val [nth (81 + m) p 0; nth (81 + m + 1) p 0]%N in
   nth 1 p 0%N = 3%N /\ nth 4 p 0%N = 2%N /\ 83 + m + N.to_nat dl <= 4 + N.to_nat len /\ 4 + N.to_nat len <= length p /\
   (strict = true -> dl <> 0%N \/ 83 + m + N.to_nat dl < 4 + N.to_nat len)).
Proof.
  unfold key_frame_complete, data_length_at.
  assert (E : 83 + m <= length p -> between_bytes p 2 4 = [nth 2 p 0; nth 3 p 0]%N /\
    between_bytes p (0 + 81 + m) (0 + 81 + m + 2) = [nth (81 + m) p 0; nth (81 + m + 1) p 0]%N).
  { intros L. split; [apply (pair_between p 2)|apply (pair_between p (81 + m))]; lia. }
  rewrite !andb_true_iff, !N.eqb_eq, !Nat.leb_le, !orb_true_iff, !negb_true_iff, Nat.eqb_neq, Nat.ltb_lt.
  split.
  - intros H. assert (L : 83 + m <= length p) by lia. split; [exact L|]. destruct (E L) as [E1 E2]. rewrite E1, E2 in H. cbv zeta.
    destruct H as ((((H1 & H2) & H3) & H4) & H5). split; [exact H1|]. split; [exact H2|]. split; [exact H3|]. split; [exact H4|].
    intros S. destruct H5 as [[S'|H5]|H5]; [congruence|left; intros Z; apply H5; now rewrite Z|now right].
  - intros (L & H1 & H2 & H3 & H4 & H5). destruct (E L) as [E1 E2]. rewrite E1, E2. split; [now repeat split|].
    destruct strict; [|now left; left]. destruct (H5 eq_refl) as [H|H]; [|now right]. left; right. lia.
Qed.
Section Facts.
Context {cfg : Cfg}.
Lemma curable_possible akm bs : wf_bytes bs -> Curable (rd_key_frame akm) bs -> exists m, key_mic_len akm = Some m /\ key_frame_possible strict_end m bs.
Proof.
  intros W (more & [k n] & Wm & R). apply read_exact in R as (m & K & C & _). exists m. split; [exact K|].
  apply complete_iff in C as (L & H1 & H2 & H3 & _ & H5). set (p := bs ++ more) in *.
  assert (Wp : wf_bytes p) by now apply wf_bytes_app.
  assert (B : forall a b, (a < 256 -> b < 256 -> be_val [a; b] < 65536)%N).
  { intros a b Ha Hb. apply (be_val_bound [a; b]). now repeat constructor. }
  exists (be_val [nth 2 p 0; nth 3 p 0]%N), (be_val [nth (81 + m) p 0; nth (81 + m + 1) p 0]%N).
  split; [apply B; now apply wf_nth|]. split; [apply B; now apply wf_nth|].
  rewrite !be_pair by now apply wf_nth.
  split; [apply (so_far_front _ more); intros [|i] Hi; [exact H1|cbn in Hi; lia]|].
  split; [apply (so_far_front _ more); intros [|[|i]] Hi; [reflexivity|reflexivity|cbn in Hi; lia]|].
  split; [apply (so_far_front _ more); intros [|i] Hi; [exact H2|cbn in Hi; lia]|].
  split; [apply (so_far_front _ more); intros [|[|i]] Hi; [now rewrite Nat.add_0_r|reflexivity|cbn in Hi; lia]|].
  split; assumption.
Qed.
Lemma possible_curable akm m bs : wf_bytes bs -> key_mic_len akm = Some m -> key_frame_possible strict_end m bs -> Curable (rd_key_frame akm) bs.
Proof.
  intros W K (len & dl & Bl & Bd & T & L & D & DL & F & S).
  pose (t := [0; 3]%N ++ be_bytes 2 len ++ [2]%N ++ repeat 0%N (76 + m) ++ be_bytes 2 dl ++ repeat 0%N (4 + N.to_nat len - (83 + m))).
  assert (Lt : length t = 4 + N.to_nat len).
  { unfold t. rewrite !app_length, !repeat_length, !be_bytes_length. cbn [length]. lia. }
  assert (Wt : wf_bytes t).
  { assert (Z : forall k, wf_bytes (repeat 0%N k)) by (intros k; apply Forall_forall; intros x Hx; apply repeat_spec in Hx; subst; reflexivity).
    unfold t, wf_bytes. rewrite !Forall_app. repeat (split; [first [apply be_bytes_wf|apply Z|repeat constructor]|]). apply Z. }
  assert (E2 : exists a b, be_bytes 2 len = [a; b]) by (eexists _, _; reflexivity). destruct E2 as (a & b & E2).
  assert (E3 : exists c d, be_bytes 2 dl = [c; d]) by (eexists _, _; reflexivity). destruct E3 as (c & d & E3).
  assert (T1 : nth 1 t 0%N = 3%N) by reflexivity.
  assert (T2 : nth 2 t 0%N = a /\ nth 3 t 0%N = b) by (unfold t; rewrite E2; split; reflexivity).
  assert (T4 : nth 4 t 0%N = 2%N) by (unfold t; rewrite E2; reflexivity).
  assert (T5 : nth (81 + m) t 0%N = c /\ nth (81 + m + 1) t 0%N = d).
  { unfold t. rewrite E2, E3. cbn [app].
    change (0 :: 3 :: a :: b :: 2 :: repeat 0 (76 + m) ++ c :: d :: repeat 0 (4 + N.to_nat len - (83 + m)))%N
      with ([0; 3; a; b; 2] ++ repeat 0 (76 + m) ++ c :: d :: repeat 0 (4 + N.to_nat len - (83 + m)))%N.
    split; rewrite app_nth2 by (cbn [length]; lia); rewrite app_nth2 by (rewrite repeat_length; cbn [length]; lia);
      rewrite repeat_length; cbn [length].
    - replace (81 + m - 5 - (76 + m)) with 0 by lia. reflexivity.
    - replace (81 + m + 1 - 5 - (76 + m)) with 1 by lia. reflexivity. }
  exists (skipn (length bs) t). pose (p := bs ++ skipn (length bs) t). fold p.
  assert (Np : forall off x i, so_far bs off x -> i < length x -> nth (off + i) t 0%N = nth i x 0%N -> nth (off + i) p 0%N = nth i x 0%N).
  { intros off x i SF Hi Ht. unfold p. destruct (Nat.lt_ge_cases (off + i) (length bs)) as [H|H].
    - rewrite app_nth1 by exact H. now apply SF.
    - rewrite app_nth2 by exact H. rewrite <- Ht. rewrite <- (firstn_skipn (length bs) t) at 2.
      destruct (Nat.lt_ge_cases (length bs) (length t)) as [H'|H'].
      + rewrite app_nth2; rewrite firstn_length, Nat.min_l by lia; [reflexivity|exact H].
      + rewrite skipn_all2 by exact H'. rewrite app_nil_r, firstn_all2 by exact H'. rewrite !nth_overflow; [reflexivity|lia|cbn; lia]. }
  assert (Lp : 4 + N.to_nat len <= length p) by (unfold p; rewrite app_length, skipn_length; lia).
  assert (C : key_frame_complete strict_end m p = true).
  { apply complete_iff. split; [lia|]. cbv zeta. destruct T2 as [T2 T3], T5 as [T5 T6]. rewrite E2 in L. rewrite E3 in DL.
    pose proof (Np 1 _ 0 T ltac:(cbn; lia) T1) as P1. pose proof (Np 4 _ 0 D ltac:(cbn; lia) T4) as P4.
    pose proof (Np 2 _ 0 L ltac:(cbn; lia) T2) as P2. pose proof (Np 2 _ 1 L ltac:(cbn; lia) T3) as P3.
    cbn [Nat.add nth] in P1, P2, P3, P4. rewrite P1, P2, P3, P4.
    pose proof (Np (81 + m) _ 0 DL ltac:(cbn; lia)) as X. rewrite Nat.add_0_r in X. rewrite (X T5). clear X.
    rewrite (Np (81 + m) _ 1 DL ltac:(cbn; lia) T6). cbn [nth].
    rewrite <- E2, <- E3, !be_val_bytes_small by assumption. repeat split; assumption. }
  assert (R : rd_key_frame akm p = Ok (key_frame_in m p, 83 + m + data_length_at p 0 m)) by (apply read_exact; exists m; now repeat split).
  eexists. split; [|exact R].
  rewrite <- (firstn_skipn (length bs) t) in Wt. now apply wf_bytes_app in Wt.
Qed.
Lemma key_curable akm bs : wf_bytes bs ->
  (Curable (rd_key_frame akm) bs <-> exists m, key_mic_len akm = Some m /\ key_frame_possible strict_end m bs).
Proof. intros W. split; [now apply curable_possible|]. intros (m & K & P). now apply (possible_curable akm m). Qed.
End Facts.
