(** Proofs about iteration, lookup and chains of elements. *)
From Verif Require Import Base BaseFacts Elements SpecElements.

Lemma starts_with_spec bs p : starts_with bs p = true <-> exists r, bs = p ++ r.
Proof.
  revert bs; induction p as [|a p IH]; intros bs; cbn [starts_with app].
  - split; [intros _; now exists bs|intros _; now destruct bs].
  - destruct bs as [|b bs]; [split; [discriminate|intros [r E]; discriminate]|].
    rewrite andb_true_iff, IH, N.eqb_eq. split.
    + intros [-> [r ->]]. now exists r.
    + intros [r E]. injection E as -> ->. eauto.
Qed.

Section Facts.
Context {cfg : Cfg}.

(** ** Iteration *)
Inductive Iterates {A} (r : reader A) : bytes -> list A -> Prop :=
| it_stop bs e : r bs = Err e -> Iterates r bs []
| it_step bs x n xs : r bs = Ok (x, n) -> n <= length bs -> Iterates r (skipn n bs) xs ->
    Iterates r bs (x :: xs).

Lemma iterates_collect {A} (r : reader A) bs xs : Iterates r bs xs ->
  forall fuel, length xs < fuel -> iter_collect fuel r (Some bs) = Ok xs.
Proof.
  induction 1 as [bs e E|bs x n xs E L _ IH]; intros [|fuel] F; cbn [length] in F; try lia.
  - cbn [iter_collect iter_next]. now rewrite E.
  - cbn [iter_collect iter_next]. rewrite E. rewrite slice_from_ok by exact L. cbn [rbind].
    rewrite IH by lia. reflexivity.
Qed.
Definition Progress {A} (r : reader A) : Prop := forall bs x n, r bs = Ok (x, n) -> 1 <= n.
Lemma iterates_exists {A} (r : reader A) : NoPanic r -> InBounds r -> Progress r ->
  forall k bs, length bs <= k -> exists xs, Iterates r bs xs /\ length xs <= length bs.
Proof.
  intros NP IB P. induction k as [|k IH]; intros bs L.
  - destruct (r bs) as [[x n]|e|] eqn:E; [|exists []; split; [econstructor; eauto|cbn; lia]|now apply NP in E].
    pose proof (IB _ _ _ E). pose proof (P _ _ _ E). lia.
  - destruct (r bs) as [[x n]|e|] eqn:E; [|exists []; split; [econstructor; eauto|cbn; lia]|now apply NP in E].
    pose proof (IB _ _ _ E). pose proof (P _ _ _ E).
    destruct (IH (skipn n bs)) as (xs & I & Lx); [rewrite skipn_length; lia|].
    exists (x :: xs). split; [econstructor; eauto|]. cbn. rewrite skipn_length in Lx. lia.
Qed.
Lemma iter_all_spec {A} (r : reader A) bs : NoPanic r -> InBounds r -> Progress r ->
  exists xs, iter_all r bs = Ok xs /\ Iterates r bs xs.
Proof.
  intros NP IB P. destruct (iterates_exists r NP IB P (length bs) bs (le_n _)) as (xs & I & L).
  exists xs. split; [|exact I]. apply (iterates_collect _ _ _ I). lia.
Qed.
Lemma iterates_length {A} (r : reader A) bs xs : Progress r -> Iterates r bs xs -> length xs <= length bs.
Proof.
  intros P. induction 1 as [bs e E|bs x n xs E L _ IH]; cbn; [lia|].
  rewrite skipn_length in IH. specialize (P _ _ _ E). lia.
Qed.
Lemma iter_all_iterates {A} (r : reader A) bs xs : Progress r -> Iterates r bs xs -> iter_all r bs = Ok xs.
Proof. intros P I. apply (iterates_collect _ _ _ I). pose proof (iterates_length r bs xs P I). lia. Qed.

(** ** Raw elements *)
Lemma rd_raw_tlv_ok e rest : fits e -> end_ok (re_slice e ++ rest) ->
  rd_raw_tlv (enc_element e ++ rest) = Ok (e, length (enc_element e)).
Proof.
  intros F K. destruct e as [t s]. unfold fits in F. cbn [re_slice re_type] in *. unfold enc_element, rd_raw_tlv. cbn [re_slice re_type].
  set (from := (t :: N.of_nat (length s) :: s) ++ rest).
  assert (A0 : At from 0 ([t] ++ ([N.of_nat (length s)] ++ s ++ rest))) by apply At_start.
  rewrite (gread_step rd_u8 from 0 [t] t _ A0 (rd_u8_R t)) by discriminate. cbn [rbind length].
  apply At_step in A0. cbn [length] in A0.
  rewrite (gread_step rd_u8 from _ [_] _ _ A0 (rd_u8_R _)) by discriminate. cbn [rbind length].
  apply At_step in A0. cbn [length] in A0.
  rewrite (gread_at _ _ _ _ A0 K). rewrite (rd_bytes_R s) by (now rewrite Nnat.Nat2N.id). cbn [rbind].
  do 2 f_equal.
Qed.
Lemma gread_inv {A} (r : reader A) from off x off' : gread r from off = Ok (x, off') ->
  end_bad off (length from) = false /\ exists n, r (skipn off from) = Ok (x, n) /\ off' = off + n.
Proof.
  unfold gread. destruct (end_bad off (length from)); [discriminate|].
  destruct (r (skipn off from)) as [[y n]| |]; try discriminate. intros [= <- <-]. eauto.
Qed.
Lemma rd_u8_inv bs x n : rd_u8 bs = Ok (x, n) -> n = 1 /\ exists r, bs = x :: r.
Proof. destruct bs as [|b bs]; cbn; [discriminate|]. intros [= <- <-]. eauto. Qed.
Lemma rd_bytes_inv k bs x n : rd_bytes k bs = Ok (x, n) -> n = k /\ exists r, bs = x ++ r /\ length x = k.
Proof.
  unfold rd_bytes. destruct (Nat.ltb_spec (length bs) k); [discriminate|]. intros [= <- <-]. split; [reflexivity|].
  exists (skipn k bs). split; [now rewrite firstn_skipn|]. rewrite firstn_length. lia.
Qed.
Lemma rd_raw_tlv_inv bs e n : rd_raw_tlv bs = Ok (e, n) ->
  n = length (enc_element e) /\ exists rest, bs = enc_element e ++ rest /\ end_ok (re_slice e ++ rest).
Proof.
  unfold rd_raw_tlv.
  destruct (gread rd_u8 bs 0) as [[t o]| |] eqn:E1; cbn [rbind]; try discriminate.
  apply gread_inv in E1 as (_ & n1 & E1 & ->). cbn [skipn] in E1.
  apply rd_u8_inv in E1 as (-> & r1 & ->). cbn [Nat.add].
  destruct (gread rd_u8 (t :: r1) 1) as [[len o]| |] eqn:E2; cbn [rbind]; try discriminate.
  apply gread_inv in E2 as (_ & n2 & E2 & ->). cbn [skipn] in E2.
  apply rd_u8_inv in E2 as (-> & r2 & ->). cbn [Nat.add].
  destruct (gread (rd_bytes (N.to_nat len)) (t :: len :: r2) 2) as [[s o]| |] eqn:E3; cbn [rbind]; try discriminate.
  apply gread_inv in E3 as (B & n3 & E3 & ->). cbn [skipn] in E3.
  apply rd_bytes_inv in E3 as (-> & r3 & -> & L). intros [= <- <-]. cbn [length re_slice re_type].
  unfold enc_element. cbn [re_slice re_type]. rewrite L, N2Nat.id. cbn [length]. split; [lia|].
  exists r3. split; [reflexivity|]. unfold end_bad in B. unfold end_ok. destruct strict_end; [right|now left].
  apply Nat.leb_gt in B. cbn [length] in B. destruct (s ++ r3); [cbn in B; lia|discriminate].
Qed.
Lemma rd_raw_tlv_NP : NoPanic rd_raw_tlv.
Proof.
  intros bs. unfold rd_raw_tlv.
  pose proof (gread_no_panic rd_u8 bs 0 rd_u8_NP). destruct (gread rd_u8 bs 0) as [[t o]| |]; cbn [rbind]; try congruence.
  pose proof (gread_no_panic rd_u8 bs o rd_u8_NP). destruct (gread rd_u8 bs o) as [[l p]| |]; cbn [rbind]; try congruence.
  pose proof (gread_no_panic (rd_bytes (N.to_nat l)) bs p (rd_bytes_NP _)).
  destruct (gread (rd_bytes (N.to_nat l)) bs p) as [[s q]| |]; cbn [rbind]; congruence.
Qed.
Lemma rd_raw_tlv_IB : InBounds rd_raw_tlv.
Proof. intros bs e n E. apply rd_raw_tlv_inv in E as (-> & r & -> & _). rewrite app_length. lia. Qed.
Lemma rd_raw_tlv_P : Progress rd_raw_tlv.
Proof. intros bs e n E. apply rd_raw_tlv_inv in E as (-> & _). cbn. lia. Qed.
Lemma rd_raw_tlv_err bs e : rd_raw_tlv bs = Err e -> iteration_end bs.
Proof.
  intros E. unfold iteration_end, no_element. destruct bs as [|t [|len rest]]; [now left|now left|].
  destruct (Nat.lt_ge_cases (length rest) (N.to_nat len)) as [L|L]; [now left|].
  destruct (Bool.bool_dec strict_end true) as [S|S].
  - destruct rest as [|b rest].
    + right. split; [exact S|]. exists t. cbn in L. f_equal. f_equal. lia.
    + exfalso. set (r := b :: rest) in *.
      assert (K : rd_raw_tlv (enc_element (mkRaw t (firstn (N.to_nat len) r)) ++ skipn (N.to_nat len) r) = Err e).
      { unfold enc_element. cbn [re_slice re_type]. rewrite firstn_length_le, N2Nat.id by exact L. cbn [app].
        now rewrite firstn_skipn. }
      assert (Hend : end_ok (firstn (N.to_nat len) r ++ skipn (N.to_nat len) r)) by (rewrite firstn_skipn; right; discriminate).
      unfold rd_raw_tlv in K. unfold enc_element in K. cbn [re_slice re_type] in K.
      rewrite firstn_length_le, N2Nat.id in K by exact L. cbn [app] in K. rewrite firstn_skipn in K.
      unfold gread in K. rewrite end_bad_lt in K by (cbn; lia). cbn [skipn rd_u8 rbind Nat.add] in K.
      rewrite end_bad_lt in K by (cbn; lia). cbn [skipn rd_u8 rbind Nat.add] in K.
      rewrite end_bad_lt in K by (subst r; cbn; lia). cbn [skipn rd_u8 rbind Nat.add] in K.
      unfold rd_bytes in K. destruct (Nat.ltb_spec (length r) (N.to_nat len)); [lia|]. discriminate.
  - exfalso. apply Bool.not_true_is_false in S.
    unfold rd_raw_tlv, gread in E. unfold end_bad in E. rewrite S in E. cbn [skipn rd_u8 rbind Nat.add length Nat.ltb Nat.leb] in E.
    unfold rd_bytes in E. destruct (Nat.ltb_spec (length rest) (N.to_nat len)); [lia|]. discriminate.
Qed.
Lemma rd_raw_tlv_end bs : iteration_end bs -> exists e, rd_raw_tlv bs = Err e.
Proof.
  intros H. destruct (rd_raw_tlv bs) as [[x n]|e|] eqn:E; [exfalso|eauto|now apply rd_raw_tlv_NP in E].
  apply rd_raw_tlv_inv in E as (-> & r & -> & K). unfold enc_element in H. destruct x as [t s]. cbn [re_type re_slice app] in *.
  destruct H as [H|[S [t' H]]].
  - cbn in H. rewrite app_length in H. lia.
  - injection H as H1 H2 H3. rewrite H3 in K. destruct K as [K|K]; congruence.
Qed.

Lemma iterates_raw bs es : Iterates rd_raw_tlv bs es ->
  exists tail, bs = enc_elements es ++ tail /\ iteration_end tail.
Proof.
  induction 1 as [bs e E|bs x n xs E L _ IH].
  - exists bs. split; [reflexivity|]. now apply rd_raw_tlv_err in E.
  - destruct IH as (tail & E2 & T). apply rd_raw_tlv_inv in E as (-> & r & -> & _).
    rewrite skipn_app_exact in E2 by reflexivity. subst r. exists tail. split; [|exact T].
    unfold enc_elements. cbn [map concat]. now rewrite app_assoc.
Qed.
(** C09 *)
Lemma raw_elements_spec bs : exists es tail,
  raw_elements bs = Ok es /\ bs = enc_elements es ++ tail /\ iteration_end tail.
Proof.
  destruct (iter_all_spec rd_raw_tlv bs rd_raw_tlv_NP rd_raw_tlv_IB rd_raw_tlv_P) as (es & E & I).
  destruct (iterates_raw bs es I) as (tail & Eb & T). exists es, tail. auto.
Qed.
Lemma raw_elements_no_panic bs : raw_elements bs <> Panic.
Proof. destruct (raw_elements_spec bs) as (es & t & E & _). rewrite E. discriminate. Qed.


Lemma iterates_enc es : forall tail, Forall fits es -> end_visible es tail -> iteration_end tail ->
  Iterates rd_raw_tlv (enc_elements es ++ tail) es.
Proof.
  induction es as [|e es IH]; intros tail F V T.
  - destruct (rd_raw_tlv_end tail T) as [err E]. econstructor. exact E.
  - inversion F as [|? ? Fe Fes]; subst. unfold enc_elements. cbn [map concat]. rewrite <- app_assoc.
    assert (V' : end_visible es tail).
    { destruct V as [V|[V|V]]; [now left|right; now left|]. right. right. cbn [rev] in V.
      destruct (rev es) as [|x l] eqn:R; [exact I|]. exact V. }
    econstructor.
    + apply rd_raw_tlv_ok; [exact Fe|]. destruct V as [V|[V|V]].
      * now left.
      * right. intros E. apply app_eq_nil in E as [_ E]. apply app_eq_nil in E as [_ E]. auto.
      * cbn [rev] in V. destruct (rev es) as [|x l] eqn:R.
        -- cbn in V. right. intros E. apply app_eq_nil in E as [E _]. auto.
        -- assert (es <> []) by (intros ->; discriminate).
           right. destruct es as [|y es']; [congruence|]. intros E. apply app_eq_nil in E as [_ E]. cbn in E. discriminate.
    + rewrite app_length. lia.
    + rewrite skipn_app_exact by reflexivity. now apply IH.
Qed.
Lemma raw_elements_enc es tail : Forall fits es -> end_visible es tail -> iteration_end tail ->
  raw_elements (enc_elements es ++ tail) = Ok es.
Proof. intros. apply iter_all_iterates; [apply rd_raw_tlv_P|]. now apply iterates_enc. Qed.
Lemma iteration_end_nil : iteration_end [].
Proof. now left. Qed.

(** ** Lookup *)
Lemma rd_raw_ext_cons x s : rd_raw_ext (x :: s) = Ok (mkRawExt x s, 1).
Proof. unfold rd_raw_ext, gread. rewrite end_bad_lt by (cbn; lia). reflexivity. Qed.
Lemma rd_raw_ext_NP : NoPanic rd_raw_ext.
Proof.
  intros [|x s].
  - unfold rd_raw_ext, gread. destruct (end_bad _ _); discriminate.
  - rewrite rd_raw_ext_cons. discriminate.
Qed.
Lemma rd_vendor_NP : NoPanic rd_vendor.
Proof. intros bs. discriminate. Qed.
Lemma pread0 {A} (r : reader A) bs : bs <> [] ->
  pread r bs 0 = match r bs with Ok (x, n) => Ok x | Err e => Err e | Panic => Panic end.
Proof. intros H. rewrite (pread_at r bs 0 bs (At_start bs)); [reflexivity|now right]. Qed.
Lemma pread_nil {A} (r : reader A) x n : (strict_end = true -> False) -> r [] = Ok (x, n) -> pread r [] 0 = Ok x.
Proof.
  intros S E. unfold pread, gread. rewrite end_bad_false by (unfold slack; cbn; destruct strict_end; [exfalso; auto|lia]).
  cbn [skipn]. now rewrite E.
Qed.

Lemma element_id_matches_spec raw id : lookup_id id ->
  (element_id_matches raw id = true <-> is_element id raw).
Proof.
  intros L. unfold is_element, element. destruct raw as [t s]. destruct id as [i|x|p]; cbn [element_id_matches re_type re_slice id_prefix app].
  - rewrite N.eqb_eq. split; [intros ->; now exists s|intros [b E]; congruence].
  - destruct (N.eqb_spec t 255) as [->|N].
    + destruct s as [|y s].
      * split; [|intros [b E]; discriminate]. unfold pread, gread. destruct (end_bad _ _); [discriminate|].
        cbn [skipn]. unfold rd_raw_ext, gread. destruct (end_bad _ _); discriminate.
      * rewrite pread0 by discriminate. rewrite rd_raw_ext_cons. cbn. rewrite N.eqb_eq.
        split; [intros ->; now exists s|intros [b E]; congruence].
    + split; [discriminate|intros [b E]; congruence].
  - cbn in L. destruct (N.eqb_spec t 221) as [->|N].
    + destruct s as [|y s].
      * unfold pread, gread, rd_vendor. split.
        -- destruct (end_bad _ _); [discriminate|]. cbn [skipn]. intros H. apply starts_with_spec in H as [r E].
           destruct p; [congruence|discriminate].
        -- intros [b E]. destruct p; [congruence|discriminate].
      * rewrite pread0 by discriminate. unfold rd_vendor. rewrite starts_with_spec.
        split; intros [r E]; exists r; congruence.
    + split; [discriminate|intros [b E]; congruence].
Qed.

Lemma raw_element_body_match id raw body : lookup_id id -> raw = element id body ->
  raw_element_body id raw = Ok (Some body).
Proof.
  intros L ->. destruct id as [i|x|p]; cbn [raw_element_body element re_slice id_prefix app].
  - reflexivity.
  - rewrite pread0 by discriminate. rewrite rd_raw_ext_cons. reflexivity.
  - cbn in L. rewrite pread0 by (destruct p; [congruence|discriminate]). unfold rd_vendor. cbn [res_ok rbind].
    rewrite slice_from_ok by (rewrite app_length; lia). cbn [rbind]. now rewrite skipn_app_exact.
Qed.
Lemma match_and_parse_spec {W R} (t : ElementType W R) raw : lookup_id (et_id t) -> NoPanic (et_read t) ->
  exists x, match_and_parse t raw = Ok x /\ parsed t raw x.
Proof.
  intros L NP. unfold match_and_parse. destruct (element_id_matches raw (et_id t)) eqn:M.
  - apply element_id_matches_spec in M; [|exact L]. destruct M as [body E]. unfold parse_raw_element.
    rewrite (raw_element_body_match _ _ body L E). cbn [rbind].
    pose proof (pread_no_panic (et_read t) body 0 NP).
    destruct (pread (et_read t) body 0) as [v|e|] eqn:P; cbn [res_ok]; [exists (Some v)|exists None|congruence];
      (split; [reflexivity|left; exists body; split; [exact E|now rewrite P]]).
  - exists None. split; [reflexivity|]. right. split; [|reflexivity]. intros I.
    apply (element_id_matches_spec raw (et_id t) L) in I. congruence.
Qed.
Lemma filter_map_res_spec {A B} (f : A -> Res serr (option B)) l os :
  Forall2 (fun a o => f a = Ok o) l os -> filter_map_res f l = Ok (somes os).
Proof. induction 1 as [|a o l os E _ IH]; cbn; [reflexivity|]. rewrite E. cbn [rbind]. rewrite IH. now destruct o. Qed.
Lemma find_map_res_spec {A B} (f : A -> Res serr (option B)) l os :
  Forall2 (fun a o => f a = Ok o) l os -> find_map_res f l = Ok (hd_error (somes os)).
Proof. induction 1 as [|a o l os E _ IH]; cbn; [reflexivity|]. rewrite E. cbn [rbind]. destruct o; [reflexivity|exact IH]. Qed.
Lemma lookup_spec {W R} (t : ElementType W R) bs : lookup_id (et_id t) -> NoPanic (et_read t) ->
  exists es os, raw_elements bs = Ok es /\ Forall2 (parsed t) es os /\
    get_matching_elements t bs = Ok (somes os) /\ get_first_element t bs = Ok (hd_error (somes os)).
Proof.
  intros L NP. destruct (raw_elements_spec bs) as (es & tail & E & _). exists es.
  assert (H : exists os, Forall2 (fun a o => match_and_parse t a = Ok o) es os /\ Forall2 (parsed t) es os).
  { clear E tail. induction es as [|e es (os & H1 & H2)]; [exists []; split; constructor|].
    destruct (match_and_parse_spec t e L NP) as (x & Ex & Px). exists (x :: os). split; constructor; assumption. }
  destruct H as (os & H1 & H2). exists os. split; [exact E|]. split; [exact H2|].
  unfold get_matching_elements, get_first_element. rewrite E. cbn [rbind].
  now rewrite (filter_map_res_spec _ _ _ H1), (find_map_res_spec _ _ _ H1).
Qed.
Lemma lookup_raw_spec bs id : lookup_id id -> exists es,
  raw_elements bs = Ok es /\
  exists f, (forall raw, f raw = true <-> is_element id raw) /\
  get_matching_elements_raw bs id = Ok (filter f es) /\
  get_first_element_raw bs id = Ok (hd_error (filter f es)).
Proof.
  intros L. destruct (raw_elements_spec bs) as (es & tail & E & _). exists es. split; [exact E|].
  exists (fun raw => element_id_matches raw id). split; [intros raw; now apply element_id_matches_spec|].
  unfold get_matching_elements_raw, get_first_element_raw. rewrite E. cbn [rmap rbind]. split; [reflexivity|].
  f_equal. clear E. induction es as [|e es IH]; cbn; [reflexivity|]. destruct (element_id_matches e id); [reflexivity|exact IH].
Qed.

(** ** Writing *)
Lemma wr_u8_W v : Writes (wr_u8 v) (le_bytes 1 v).
Proof. apply wr_bytes_W. Qed.
Lemma le_bytes_1 v : (v < 256)%N -> le_bytes 1 v = [v].
Proof. intros H. cbn [le_bytes]. f_equal. now apply N.mod_small. Qed.
Lemma wr_u8_small v : (v < 256)%N -> Writes (wr_u8 v) [v].
Proof. intros H. rewrite <- le_bytes_1 by exact H. apply wr_u8_W. Qed.
Lemma Writes_eq w bs bs' : Writes w bs -> bs = bs' -> Writes w bs'.
Proof. now intros H <-. Qed.
Lemma wr_tlv_W t m w body : (t < 256)%N -> m = length body -> length body <= 255 -> Writes w body ->
  Writes (wr_tlv t m w) (enc_element (mkRaw t body)).
Proof.
  intros T -> L W.
  assert (H : Writes (wseq [wr_u8 t; wr_u8 (N.of_nat (length body)); w]) (enc_element (mkRaw t body))).
  { eapply Writes_eq; [apply wseq_W|].
    - constructor; [apply wr_u8_small, T|]. constructor; [apply (wr_u8_small (N.of_nat (length body))); lia|].
      constructor; [exact W|constructor].
    - cbn [concat]. now rewrite app_nil_r. }
  split; intros buf; unfold wr_tlv; (destruct (Nat.ltb_spec 255 (length body)); [lia|]); apply H.
Qed.
Lemma id_prefix_length id : length (id_prefix id) + 2 = element_header_length id.
Proof. destruct id; cbn; lia. Qed.
Lemma wr_wrapped_W e id body : writes_element e id body -> wf_id id -> fits (element id body) ->
  Writes (wr_wrapped e) (enc_element (element id body)) /\
  wrapped_measure e = length (enc_element (element id body)).
Proof.
  intros (Ei & Em & W) Hid F. unfold fits, element in F. cbn [re_slice] in F. rewrite app_length in F. split.
  2:{ unfold wrapped_measure. rewrite Ei, Em. unfold enc_element, element. cbn [re_slice length].
      rewrite app_length, <- id_prefix_length. lia. }
  assert (X : forall w bs, Writes w bs -> forall w', (forall buf, w' buf = pwrite w buf 0) -> Writes w' bs).
  { intros w bs H w' Eq. destruct (pwrite0_W w bs H) as [A B]. split; intros buf; rewrite Eq; auto. }
  unfold element. destruct id as [i|x|p]; cbn [id_prefix app] in *.
  - eapply X; [|intros buf; unfold wr_wrapped; rewrite Ei; reflexivity].
    apply wr_tlv_W; auto.
  - eapply X; [|intros buf; unfold wr_wrapped; rewrite Ei; reflexivity].
    apply wr_tlv_W; [lia|cbn; lia|cbn; cbn in F; lia|].
    eapply Writes_eq; [apply wseq_W; constructor; [apply wr_u8_small, Hid|constructor; [exact W|constructor]]|].
    cbn [concat app]. now rewrite app_nil_r.
  - eapply X; [|intros buf; unfold wr_wrapped; rewrite Ei; reflexivity].
    apply wr_tlv_W; [lia|rewrite app_length; lia|rewrite app_length; lia|].
    eapply Writes_eq; [apply wseq_W; constructor; [apply wseq_W; constructor; [apply wr_bytes_W|constructor; [exact W|constructor]]|constructor]|].
    cbn [concat]. now rewrite !app_nil_r.
Qed.
Lemma Writes_ext w w' bs : (forall buf, w' buf = w buf) -> Writes w bs -> Writes w' bs.
Proof. intros E [A B]. split; intros buf; rewrite E; auto. Qed.
Definition wr_item (i : ChainItem) : writer :=
  match i with Typed e => wr_wrapped e | RawItem r => wr_raw_tlv r end.
Definition item_measure (i : ChainItem) : nat :=
  match i with Typed e => wrapped_measure e | RawItem r => length (re_slice r) + 2 end.
Lemma wr_item_W i raw : item_element i raw -> wf_item i -> fits raw ->
  Writes (wr_item i) (enc_element raw) /\ item_measure i = length (enc_element raw).
Proof.
  destruct i as [e|r]; cbn [item_element wf_item wr_item item_measure].
  - intros (id & body & H & ->) Hid F. apply wr_wrapped_W; auto. destruct H as (<- & _). exact Hid.
  - intros -> H F. split.
    + destruct r as [t s]. apply wr_tlv_W; auto. apply wr_bytes_W.
    + cbn. lia.
Qed.
Lemma wr_chain_end i buf : wr_chain (ChainEnd i) buf = pwrite (wr_item i) buf 0.
Proof. now destruct i. Qed.
Lemma wr_chain_link i c buf : wr_chain (ChainLink i c) buf = wseq [wr_item i; wr_chain c] buf.
Proof. now destruct i. Qed.
Lemma wr_chain_W c : forall raws, Forall2 item_element (chain_items c) raws ->
  Forall wf_item (chain_items c) -> Forall fits raws -> Writes (wr_chain c) (enc_elements raws).
Proof.
  induction c as [i|i c IH]; intros raws H W F; cbn [chain_items] in *.
  - inversion H as [|? raw ? l Hi Hn]; subst. inversion Hn; subst. inversion W; inversion F; subst.
    destruct (wr_item_W i raw) as [Wi _]; auto.
    eapply Writes_ext; [intros buf; apply wr_chain_end|]. unfold enc_elements. cbn [map concat]. rewrite app_nil_r.
    now apply pwrite0_W.
  - inversion H as [|? raw ? l Hi Hn]; subst. inversion W; inversion F; subst.
    destruct (wr_item_W i raw) as [Wi _]; auto.
    eapply Writes_ext; [intros buf; apply wr_chain_link|]. unfold enc_elements. cbn [map concat].
    eapply Writes_eq; [apply wseq_W; constructor; [exact Wi|constructor; [apply (IH l); auto|constructor]]|].
    cbn [concat]. now rewrite app_nil_r.
Qed.
(** an item whose information does not fit into the length field *)
Lemma wr_item_long i raw buf : item_element i raw -> ~ fits raw -> exists e, wr_item i buf = Err e.
Proof.
  assert (T : forall ty m w b, 255 < m -> wr_tlv ty m w b = Err BadInput).
  { intros ty m w b H. unfold wr_tlv. now rewrite (proj2 (Nat.ltb_lt _ _)). }
  assert (P : forall w, (forall b, exists e, w b = Err e) -> exists e, pwrite w buf 0 = Err e).
  { intros w H. unfold pwrite, gwrite. destruct (end_bad 0 (length buf)); [eauto|].
    destruct (H (skipn 0 buf)) as [e ->]. eauto. }
  destruct i as [e|r]; cbn [item_element wr_item].
  - intros (id & body & (Ei & M & _) & ->) F. unfold wr_wrapped. unfold fits, element in F. rewrite Ei in *.
    destruct id as [i|x|p]; cbn [re_slice id_prefix] in F; rewrite ?app_length in F; cbn in F;
      apply P; intros b; rewrite T by lia; eauto.
  - intros -> F. unfold wr_raw_tlv. rewrite T by (unfold fits in F; lia). eauto.
Qed.
Lemma wr_chain_long c : forall raws, Forall2 item_element (chain_items c) raws ->
  Forall wf_item (chain_items c) -> ~ Forall fits raws -> forall buf, exists e, wr_chain c buf = Err e.
Proof.
  induction c as [i|i c IH]; intros raws H W F buf; cbn [chain_items] in *.
  - inversion H as [|? raw ? l Hi Hn]; subst. inversion Hn; subst.
    rewrite wr_chain_end. unfold pwrite, gwrite. destruct (end_bad 0 (length buf)); [eauto|].
    destruct (wr_item_long i raw (skipn 0 buf) Hi) as [e ->]; [intros X; apply F; auto|eauto].
  - inversion H as [|? raw ? l Hi Hn]; subst. inversion W as [|? ? Wi Wn]; subst.
    rewrite wr_chain_link. unfold wseq. cbn [wseq_from]. unfold gwrite at 1.
    destruct (end_bad 0 (length buf)); [cbn; eauto|].
    destruct (le_lt_dec (length (re_slice raw)) 255) as [L|L].
    + destruct (wr_item_W i raw Hi Wi L) as [X _].
      destruct (writes_any _ _ X (skipn 0 buf)) as [[_ ->]|[e ->]]; [|cbn; eauto].
      cbn [rbind]. unfold gwrite at 1. match goal with |- context [end_bad ?a ?b] => destruct (end_bad a b) end; [cbn; eauto|].
      match goal with |- context [wr_chain c ?b] => destruct (IH l Hn Wn ltac:(intros Y; apply F; auto) b) as [e ->] end. cbn; eauto.
    + destruct (wr_item_long i raw (skipn 0 buf) Hi) as [e ->]; [intros Y; unfold fits in Y; lia|cbn; eauto].
Qed.
Lemma chain_measure_spec c : forall raws, Forall2 item_element (chain_items c) raws ->
  Forall wf_item (chain_items c) -> Forall fits raws ->
  (typed_end c -> chain_measure c = length (enc_elements raws)) /\
  (~ typed_end c -> chain_measure c + 2 = length (enc_elements raws)).
Proof.
  induction c as [i|i c IH]; intros raws H W F; cbn [chain_items typed_end] in *.
  - inversion H as [|? raw ? l Hi Hn]; subst. inversion Hn; subst. inversion W; inversion F; subst.
    destruct (wr_item_W i raw) as [_ M]; auto. unfold enc_elements. cbn [map concat]. rewrite app_nil_r, <- M.
    destruct i; cbn; unfold wrapped_measure; split; intros; try tauto; lia.
  - inversion H as [|? raw ? l Hi Hn]; subst. inversion W; inversion F; subst.
    destruct (wr_item_W i raw) as [_ M]; auto. destruct (IH l) as [A B]; auto.
    unfold enc_elements in *. cbn [map concat]. rewrite app_length, <- M.
    destruct i; cbn; unfold wrapped_measure; split; intros K; try specialize (A K); try specialize (B K); lia.
Qed.
Lemma chain_append_items c i : chain_items (chain_append c i) = chain_items c ++ [i].
Proof. induction c as [j|j c IH]; cbn; [reflexivity|now rewrite IH]. Qed.
Lemma chain_of_items i l : chain_items (chain_of i l) = i :: l.
Proof. revert i; induction l as [|j l IH]; intros i; cbn; [reflexivity|now rewrite IH]. Qed.

(** ** Written chains are found again *)
Lemma element_inj id b b' : element id b = element id b' -> b = b'.
Proof. unfold element. intros E. injection E as E. now apply app_inv_head in E. Qed.
Lemma writes_unique w b b' : Writes w b -> Writes w b' -> b = b'.
Proof.
  intros [_ A] [_ B]. pose (n := length b + length b' + slack).
  specialize (A (repeat 0%N n)). specialize (B (repeat 0%N n)). rewrite repeat_length in A, B.
  rewrite A in B by (subst n; lia). specialize (B ltac:(subst n; lia)). injection B as B L.
  apply (f_equal (firstn (length b))) in B. rewrite firstn_app_exact in B by reflexivity.
  rewrite L, firstn_app_exact in B by reflexivity. exact B.
Qed.
Lemma lookup_written {W R} (t : ElementType W R) ok conv c raws os :
  lookup_id (et_id t) -> NoPanic (et_read t) -> RoundTrip t ok conv ->
  Forall2 item_element (chain_items c) raws -> Forall wf_item (chain_items c) -> Forall fits raws -> end_visible raws [] ->
  holds_values t ok (chain_items c) os ->
  Writes (wr_chain c) (enc_elements raws) /\
  get_matching_elements t (enc_elements raws) = Ok (map conv (somes os)) /\
  get_first_element t (enc_elements raws) = Ok (option_map conv (hd_error (somes os))).
Proof.
  intros L NP RT I WF F V H. split; [now apply wr_chain_W|].
  pose proof (raw_elements_enc raws [] F V iteration_end_nil) as E. rewrite app_nil_r in E.
  assert (X : Forall2 (fun a o => match_and_parse t a = Ok o) raws (map (option_map conv) os)).
  { clear - L NP RT I H. unfold holds_values in H. revert raws I.
    induction H as [|i o items os Hio _ IH]; intros raws I; inversion I as [|? raw ? raws' Ir I']; subst; cbn [map]; constructor; [|now apply IH].
    destruct (match_and_parse_spec t raw L NP) as (x & Ex & [(body & Eb & P)|[N ->]]).
    - rewrite Ex. f_equal. destruct o as [w|].
      + destruct Hio as (-> & Hok & S). cbn [item_element] in Ir. destruct Ir as (id & body' & (Ei & Em & Wr) & Er).
        cbn [elem_of e_id e_measure e_write] in *. subst id.
        destruct (RT w Hok) as (b & Wb & Mb & _ & Rb).
        assert (b = body') by (eapply writes_unique; eassumption). subst b.
        assert (body' = body) by (apply (element_inj (et_id t)); congruence). subst body'.
        unfold ReadsAll in Rb. cbn [option_map].
        assert (Pr : pread (et_read t) body 0 = Ok (conv w)).
        { destruct body as [|a body].
          - destruct S as [S|S]; [|cbn in Mb; congruence]. eapply pread_nil; [congruence|exact Rb].
          - rewrite pread0 by discriminate. now rewrite Rb. }
        now rewrite Pr in P.
      + exfalso. apply (Hio raw Ir). now exists body.
    - rewrite Ex. f_equal. destruct o as [w|]; [|reflexivity]. exfalso. apply N.
      destruct Hio as (-> & _). cbn [item_element] in Ir. destruct Ir as (id & body' & (Ei & _) & ->).
      cbn [elem_of e_id] in Ei. subst id. now exists body'. }
  assert (S : somes (map (option_map conv) os) = map conv (somes os)).
  { clear. induction os as [|[o|] os IH]; cbn; congruence. }
  unfold get_matching_elements, get_first_element. rewrite E. cbn [rbind].
  rewrite (filter_map_res_spec _ _ _ X), (find_map_res_spec _ _ _ X), S. split; [reflexivity|].
  now destruct (somes os).
Qed.
End Facts.
