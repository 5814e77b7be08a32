(** Reading and writing of the RSN element. *)
From Verif Require Import Base BaseFacts Bits Layouts BitsFacts Enums Utf8 Elements SpecElements ElementsFacts
  ElementTypes SpecElementTypes ElementTypesFacts StepsFacts Suites Rsn SpecRsn RsnFacts.

Section Facts.
Context {cfg : Cfg}.
(** ** Suites and lists *)
Lemma rd_cipher_R c : ok_cipher c -> Reads rd_cipher (enc_cipher c) c.
Proof.
  intros H rest. unfold rd_cipher. rewrite <- enc_cipher_selector.
  pose proof (At_start (le_bytes 4 (cipher_selector c) ++ rest)) as A.
  rewrite (gread_step (rd_le 4) _ 0 _ _ rest A (rd_le_R 4 _ (cipher_selector_bound c H))) by (apply nonempty_length; rewrite le_bytes_length; lia).
  cbn [rbind]. now rewrite cipher_from_to.
Qed.
Lemma rd_akm_R c : ok_akm c -> Reads rd_akm (enc_akm c) c.
Proof.
  intros H rest. unfold rd_akm. rewrite <- enc_akm_selector.
  pose proof (At_start (le_bytes 4 (akm_selector c) ++ rest)) as A.
  rewrite (gread_step (rd_le 4) _ 0 _ _ rest A (rd_le_R 4 _ (akm_selector_bound c H))) by (apply nonempty_length; rewrite le_bytes_length; lia).
  cbn [rbind]. now rewrite akm_from_to.
Qed.
Lemma rd_pmkid_R p : ok_pmkid p -> Reads rd_pmkid p p.
Proof. intros [L _]. now apply rd_bytes_R. Qed.
Lemma rd_cipher_NP : NoPanic rd_cipher.
Proof. intros from. unfold rd_cipher. np. Qed.
Lemma rd_akm_NP : NoPanic rd_akm.
Proof. intros from. unfold rd_akm. np. Qed.
Lemma rd_cipher_size from x n : rd_cipher from = Ok (x, n) -> n = 4.
Proof. unfold rd_cipher. intros E. rinv E. injection E as _ <-. lia. Qed.
Lemma rd_akm_size from x n : rd_akm from = Ok (x, n) -> n = 4.
Proof. unfold rd_akm. intros E. rinv E. injection E as _ <-. lia. Qed.
Lemma rd_cipher_P : Progress rd_cipher.
Proof. intros bs x n E. apply rd_cipher_size in E. lia. Qed.
Lemma rd_akm_P : Progress rd_akm.
Proof. intros bs x n E. apply rd_akm_size in E. lia. Qed.
Lemma rd_pmkid_P : Progress rd_pmkid.
Proof. intros bs x n E. apply rd_bytes_size in E. lia. Qed.
Lemma gread_nil {A} (r : reader A) e : r [] = Err e -> exists e', gread r [] 0 = Err e'.
Proof. intros E. unfold gread. cbn [length skipn]. destruct (end_bad 0 0); [eauto|]. rewrite E. eauto. Qed.
Lemma rd_cipher_short from : length from < 4 -> exists e, rd_cipher from = Err e.
Proof.
  intros L. unfold rd_cipher, gread. destruct (end_bad _ _); cbn [rbind]; [eauto|].
  cbn [skipn]. unfold rd_le. destruct (Nat.ltb_spec (length from) 4); [|lia]. cbn. eauto.
Qed.
Lemma rd_akm_short from : length from < 4 -> exists e, rd_akm from = Err e.
Proof.
  intros L. unfold rd_akm, gread. destruct (end_bad _ _); cbn [rbind]; [eauto|].
  cbn [skipn]. unfold rd_le. destruct (Nat.ltb_spec (length from) 4); [|lia]. cbn. eauto.
Qed.
Lemma iterates_concat {A} (r : reader A) enc (ok : A -> Prop) l : (forall x, ok x -> Reads r (enc x) x) ->
  (exists e, r [] = Err e) -> Forall ok l -> Iterates r (concat (map enc l)) l.
Proof.
  intros R [e E]. induction 1 as [|x l O F IH]; cbn [map concat]; [now apply (it_stop r [] e)|].
  apply (it_step r _ x (length (enc x))); [apply R, O|rewrite app_length; lia|].
  now rewrite skipn_app_exact.
Qed.
Lemma rl_items_shows {A} (r : reader A) enc (ok : A -> Prop) x l : (forall x, ok x -> Reads r (enc x) x) ->
  (exists e, r [] = Err e) -> Progress r -> Forall ok l -> list_shows enc (Some x) (Some l) -> rl_items r x = Ok l.
Proof.
  intros R E P F S. destruct x as [l'|bs]; cbn in *; [congruence|]. subst bs.
  apply iter_all_iterates; [exact P|]. eapply iterates_concat; eauto.
Qed.
Lemma cipher_items x l : Forall ok_cipher l -> list_shows enc_cipher (Some x) (Some l) -> rl_items rd_cipher x = Ok l.
Proof. apply rl_items_shows; [apply rd_cipher_R|apply rd_cipher_short; cbn; lia|apply rd_cipher_P]. Qed.
Lemma akm_items x l : Forall ok_akm l -> list_shows enc_akm (Some x) (Some l) -> rl_items rd_akm x = Ok l.
Proof. apply rl_items_shows; [apply rd_akm_R|apply rd_akm_short; cbn; lia|apply rd_akm_P]. Qed.
Lemma pmkid_items x l : Forall ok_pmkid l -> list_shows (fun p => p) (Some x) (Some l) -> rl_items rd_pmkid x = Ok l.
Proof. apply rl_items_shows; [apply rd_pmkid_R|eexists; reflexivity|apply rd_pmkid_P]. Qed.
(** iterating a list never panics *)
Lemma rl_items_total {A} (r : reader A) x : NoPanic r -> InBounds r -> Progress r -> exists l, rl_items r x = Ok l.
Proof.
  intros N I P. destruct x as [l|bs]; cbn; [eauto|].
  destruct (iter_all_spec r bs N I P) as (l & E & _). eauto.
Qed.

(** ** Writing *)
Lemma wr_cipher_W c : Writes (wr_cipher c) (enc_cipher c).
Proof. unfold wr_cipher. rewrite <- enc_cipher_selector. writes_seq. Qed.
Lemma wr_akm_W c : Writes (wr_akm c) (enc_akm c).
Proof. unfold wr_akm. rewrite <- enc_akm_selector. writes_seq. Qed.
Lemma wr_pmkid_W p : Writes (wr_pmkid p) p.
Proof. apply pwrite0_W, wr_bytes_W. Qed.
Lemma wr_rlist_W {A} (w : A -> writer) enc x l : (forall a, Writes (w a) (enc a)) ->
  list_shows enc (Some x) (Some l) -> Writes (wr_rlist w x) (concat (map enc l)).
Proof.
  intros W S. destruct x as [l'|bs]; cbn in S; subst; cbn [wr_rlist].
  - apply wseq_W. induction l; constructor; auto.
  - apply pwrite0_W, wr_bytes_W.
Qed.
Lemma concat_length_const {A} (f : A -> bytes) n l : Forall (fun x => length (f x) = n) l ->
  length (concat (map f l)) = n * length l.
Proof. induction 1 as [|x l E F IH]; cbn [map concat length]; [lia|]. rewrite app_length, E, IH. lia. Qed.
Lemma wr_list_S {A} (w : A -> writer) enc x l k : (forall a, Writes (w a) (enc a)) ->
  list_shows enc (Some x) (Some l) -> Forall (fun a => length (enc a) = 4 * k) l ->
  (N.of_nat (length (concat (map enc l))) < 65536)%N ->
  Steps (wr_list w x) (enc_list k enc l).
Proof.
  intros W S F L. pose proof (concat_length_const enc (4 * k) l F) as C.
  pose proof (Steps_backpatch 2 (gwrite (wr_rlist w x)) (fun n => le_bytes 2 (N.of_nat n mod 65536 / 4)) (concat (map enc l))) as B.
  assert (E : le_bytes 2 (N.of_nat (length (concat (map enc l))) mod 65536 / 4) = le_bytes 2 (N.of_nat (k * length l))).
  { f_equal. rewrite (N.mod_small _ 65536) by exact L. rewrite C.
    replace (N.of_nat (4 * k * length l)) with (N.of_nat (k * length l) * 4)%N by lia. apply N.div_mul. lia. }
  cbv beta in B. rewrite E in B. unfold enc_list. eapply Steps_ext; [|apply B].
  - intros buf off. unfold wr_list, backpatch.
    destruct (gwrite (wr_rlist w x) buf (off + 2)) as [[b o]| |] eqn:G; cbn [rbind]; try reflexivity.
    assert (off + 2 <= o).
    { unfold gwrite in G. destruct (end_bad _ _); [discriminate|]. destruct (wr_rlist w x _) as [[? ?]| |]; try discriminate.
      injection G as _ <-. lia. }
    replace (o - (o - (off + 2)) - 2) with off by lia. reflexivity.
  - apply Steps_gwrite. now apply wr_rlist_W.
  - discriminate.
  - apply le_bytes_length.
  - intros. now apply gwrite_far.
Qed.
Lemma Steps_opt {A} (o : option A) (f : A -> step) (k : A -> step) fb kb :
  (forall a, o = Some a -> Steps (f a) (fb a) /\ Steps (k a) (kb a)) ->
  Steps (fun buf off => match o with None => Ok (buf, off) | Some a => '(buf, off) <- f a buf off ;; k a buf off end)
    (match o with None => [] | Some a => fb a ++ kb a end).
Proof. intros H. destruct o as [a|]; [apply Steps_seq; now apply H|apply Steps_ret]. Qed.
(** the bytes written, in the form of the code *)
Definition enc_nested (k : nat) (v : RsnView) : bytes :=
  le_bytes 2 1 ++
  match v_group v with None => [] | Some g => enc_cipher g ++
  match v_pairwise v with None => [] | Some p => enc_list 1 enc_cipher p ++
  match v_akm v with None => [] | Some a => enc_list 1 enc_akm a ++
  match v_caps v with None => [] | Some c => le_bytes 2 c ++
  match v_pmkids v with None => [] | Some l => enc_list k (fun p => p) l ++
  match v_group_mgmt v with None => [] | Some m => enc_cipher m ++ [] end end end end end end.
Lemma enc_nested_eq k v : enc_nested k v = enc_rsn k (up_to_gap v).
Proof.
  unfold enc_nested, enc_rsn. destruct v as [[g|] [p|] [a|] [c|] [l|] [m|]];
    cbn [v_group v_pairwise v_akm v_caps v_pmkids v_group_mgmt up_to_gap opt_enc]; rewrite ?app_nil_r; reflexivity.
Qed.
Lemma gap_free_eq v : gap_free v <-> up_to_gap v = v.
Proof.
  unfold gap_free. destruct v as [[g|] [p|] [a|] [c|] [l|] [m|]]; cbn; split; intros H; try reflexivity; try discriminate H;
    try (repeat split; congruence); exfalso; destruct H as (H1 & H2 & H3 & H4 & H5);
    try (apply H1; congruence); try (apply H2; congruence); try (apply H3; congruence); try (apply H4; congruence); try (apply H5; congruence);
    intuition congruence.
Qed.
Lemma list_shows_some {A} enc (x : option (RList A)) o a : x = Some a -> list_shows enc x o ->
  exists l, o = Some l /\ list_shows enc (Some a) (Some l).
Proof. intros -> H. destruct o as [l|]; [eauto|]. destruct a; destruct H. Qed.
Lemma list_shows_none {A} enc (o : option (list A)) : list_shows enc None o -> o = None.
Proof. destruct o; [intros []|reflexivity]. Qed.
Definition wr_rsn_step (x : Rsn) : step := fun buf off =>
  '(buf, off) <- gwrite (wr_le 2 1) buf off ;;
  match rsn_group x with None => Ok (buf, off) | Some group =>
  '(buf, off) <- gwrite (wr_cipher group) buf off ;;
  match rsn_pairwise x with None => Ok (buf, off) | Some l =>
  '(buf, off) <- wr_list wr_cipher l buf off ;;
  match rsn_akm x with None => Ok (buf, off) | Some l =>
  '(buf, off) <- wr_list wr_akm l buf off ;;
  match rsn_caps x with None => Ok (buf, off) | Some caps =>
  '(buf, off) <- gwrite (wr_le 2 caps) buf off ;;
  match rsn_pmkids x with None => Ok (buf, off) | Some l =>
  '(buf, off) <- wr_list wr_pmkid l buf off ;;
  match rsn_group_mgmt x with None => Ok (buf, off) | Some gm =>
  gwrite (wr_cipher gm) buf off
  end end end end end end.
(** lists fit into 16 bit *)
Definition lists_fit (v : RsnView) : Prop :=
  opt_ok (fun l => N.of_nat (length (concat (map enc_cipher l))) < 65536)%N (v_pairwise v) /\
  opt_ok (fun l => N.of_nat (length (concat (map enc_akm l))) < 65536)%N (v_akm v) /\
  opt_ok (fun l : list bytes => N.of_nat (length (concat (map (fun p => p) l))) < 65536)%N (v_pmkids v).
Lemma wr_rsn_W x v : shows x v -> ok_view v -> lists_fit v -> Writes (wr_rsn x) (enc_rsn 4 (up_to_gap v)).
Proof.
  intros (Sg & Sp & Sa & Sc & Sk & Sm) (_ & _ & _ & _ & Ok' & _) (Fp & Fa & Fk). rewrite <- enc_nested_eq.
  unfold enc_nested. rewrite <- Sg, <- Sc, <- Sm.
  apply (Steps_W (wr_rsn_step x)). unfold wr_rsn_step.
  apply Steps_seq; [apply Steps_gwrite, wr_bytes_W|].
  apply Steps_opt. intros g _. split; [apply Steps_gwrite, wr_cipher_W|].
  destruct (rsn_pairwise x) as [p|]; [|rewrite (list_shows_none _ _ Sp); apply Steps_ret].
  apply (list_shows_some _ _ _ p eq_refl) in Sp as (pl & Ep & Sp). rewrite Ep in *. cbn in Fp.
  apply Steps_seq; [apply wr_list_S; auto using wr_cipher_W; apply Forall_forall; intros; apply enc_cipher_len|].
  destruct (rsn_akm x) as [a|]; [|rewrite (list_shows_none _ _ Sa); apply Steps_ret].
  apply (list_shows_some _ _ _ a eq_refl) in Sa as (al & Ea & Sa). rewrite Ea in *. cbn in Fa.
  apply Steps_seq; [apply wr_list_S; auto using wr_akm_W; apply Forall_forall; intros; apply enc_akm_len|].
  apply Steps_opt. intros c _. split; [apply Steps_gwrite, wr_bytes_W|].
  destruct (rsn_pmkids x) as [k|]; [|rewrite (list_shows_none _ _ Sk); apply Steps_ret].
  apply (list_shows_some _ _ _ k eq_refl) in Sk as (kl & Ek & Sk). rewrite Ek in *. cbn in Fk, Ok'.
  apply Steps_seq; [apply (wr_list_S wr_pmkid (fun p => p)); auto using wr_pmkid_W; eapply Forall_impl; [|exact Ok']; intros ? [E _]; exact E|].
  destruct (rsn_group_mgmt x) as [m|]; [|apply Steps_ret]. rewrite app_nil_r. apply Steps_gwrite, wr_cipher_W.
Qed.

(** ** Announced length *)
Lemma enc_list_len {A} k (enc : A -> bytes) n l : (forall x, In x l -> length (enc x) = n) -> length (enc_list k enc l) = 2 + n * length l.
Proof.
  intros H. unfold enc_list. rewrite app_length, le_bytes_length, (concat_length_const enc n); [reflexivity|].
  now apply Forall_forall.
Qed.
Lemma rsn_measure_spec x v : shows x v -> ok_view v -> rsn_measure x + 12 * pmkid_count v = length (enc_rsn 4 v).
Proof.
  intros (Sg & Sp & Sa & Sc & Sk & Sm) (_ & Op & Oa & _ & Ok' & _). unfold rsn_measure, enc_rsn, pmkid_count, rl_count.
  rewrite Sg, Sc, Sm. rewrite !app_length, le_bytes_length.
  assert (Eg : forall o, length (opt_enc enc_cipher o) = match o with Some _ => 4 | None => 0 end) by (intros [c|]; cbn [opt_enc]; [apply enc_cipher_len|reflexivity]).
  rewrite !Eg.
  assert (Ep : (match rsn_pairwise x with Some l => 2 + match rl_items rd_cipher l with Ok l0 => length l0 | _ => 0 end * 4 | None => 0 end)
    = length (opt_enc (enc_list 1 enc_cipher) (v_pairwise v))).
  { destruct (rsn_pairwise x) as [p|]; [|now rewrite (list_shows_none _ _ Sp)].
    apply (list_shows_some _ _ _ p eq_refl) in Sp as (pl & Ep & Sp). rewrite Ep in *. cbn in Op. rewrite (cipher_items p pl) by auto.
    cbn [opt_enc]. rewrite (enc_list_len _ _ 4) by (intros; apply enc_cipher_len). lia. }
  assert (Ea : (match rsn_akm x with Some l => 2 + match rl_items rd_akm l with Ok l0 => length l0 | _ => 0 end * 4 | None => 0 end)
    = length (opt_enc (enc_list 1 enc_akm) (v_akm v))).
  { destruct (rsn_akm x) as [p|]; [|now rewrite (list_shows_none _ _ Sa)].
    apply (list_shows_some _ _ _ p eq_refl) in Sa as (pl & Ea & Sa). rewrite Ea in *. cbn in Oa. rewrite (akm_items p pl) by auto.
    cbn [opt_enc]. rewrite (enc_list_len _ _ 4) by (intros; apply enc_akm_len). lia. }
  assert (Ek : (match rsn_pmkids x with Some l => 2 + match rl_items rd_pmkid l with Ok l0 => length l0 | _ => 0 end * 4 | None => 0 end)
    + 12 * match v_pmkids v with Some l => length l | None => 0 end = length (opt_enc (enc_list 4 (fun p => p)) (v_pmkids v))).
  { destruct (rsn_pmkids x) as [p|]; [|now rewrite (list_shows_none _ _ Sk)].
    apply (list_shows_some _ _ _ p eq_refl) in Sk as (pl & Ek & Sk). rewrite Ek in *. cbn in Ok'. rewrite (pmkid_items p pl) by auto.
    cbn [opt_enc]. rewrite (enc_list_len _ _ 16); [lia|]. intros y I. rewrite Forall_forall in Ok'. now apply Ok'. }
  rewrite Ep, Ea. destruct (v_caps v); cbn [opt_enc]; rewrite ?le_bytes_length; cbn [length]; lia.
Qed.

(** ** Reading what was written *)
Lemma gread_ok_step {A} (r : reader A) from off bs x rest :
  At from off (bs ++ rest) -> Reads r bs x -> bs <> [] -> gread_ok r from off = Ok (Some x, off + length bs).
Proof. intros H R N. unfold gread_ok. now rewrite (gread_step r from off bs x rest H R N). Qed.
Lemma gread_ok_fail {A} (r : reader A) from off q : At from off q -> (exists e, r q = Err e) -> gread_ok r from off = Ok (None, off).
Proof.
  intros [E L] [e R]. unfold gread_ok, gread. destruct (end_bad _ _); [reflexivity|]. now rewrite E, R.
Qed.
Lemma rd_list_step from off c bs rest : At from off (le_bytes 2 (N.of_nat c) ++ bs ++ rest) ->
  (N.of_nat c < 65536)%N -> length bs = 4 * c -> end_ok (bs ++ rest) ->
  rd_list from off = Ok (Some bs, off + 2 + length bs) /\ At from (off + 2 + length bs) rest.
Proof.
  intros A C L K. unfold rd_list.
  rewrite (gread_ok_step (rd_le 2) from off _ _ _ A (rd_le_R 2 (N.of_nat c) C)) by (apply nonempty_length; rewrite le_bytes_length; lia).
  cbn [rbind]. apply At_step in A. rewrite le_bytes_length in *.
  replace (N.to_nat (N.of_nat c * 4)) with (length bs) by lia.
  split; [|now apply At_step]. unfold gread_ok. rewrite (gread_at _ from (off + 2) _ A K). now rewrite (rd_bytes_R bs _ eq_refl).
Qed.
Lemma rd_list_end from off : At from off [] -> rd_list from off = Ok (None, off).
Proof. intros A. unfold rd_list. rewrite (gread_ok_fail _ _ _ _ A) by (eexists; reflexivity). reflexivity. Qed.
Lemma rd_list_enc {A} k (enc : A -> bytes) l from off rest : At from off (enc_list k enc l ++ rest) ->
  Forall (fun a => length (enc a) = 4 * k) l -> (N.of_nat (k * length l) < 65536)%N -> end_ok (concat (map enc l) ++ rest) ->
  rd_list from off = Ok (Some (concat (map enc l)), off + length (enc_list k enc l)) /\ At from (off + length (enc_list k enc l)) rest.
Proof.
  unfold enc_list. intros A0 F C K. rewrite <- app_assoc in A0. pose proof (concat_length_const enc _ l F) as CL.
  destruct (rd_list_step from off _ _ _ A0 C ltac:(lia) K) as [E A1].
  rewrite app_length, le_bytes_length, Nat.add_assoc. auto.
Qed.
Lemma list_count_small {A} k (enc : A -> bytes) l : Forall (fun a => length (enc a) = 4 * k) l ->
  (N.of_nat (length (concat (map enc l))) < 65536)%N -> (N.of_nat (k * length l) < 65536)%N.
Proof. intros F L. rewrite (concat_length_const enc _ l F) in L. lia. Qed.
End Facts.
