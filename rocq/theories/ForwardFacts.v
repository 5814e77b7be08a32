(** Proofs about iterators over received data and about writing received data frames again. *)
From Verif Require Import Base BaseFacts SpecBase StepsFacts Enums EnumsFacts Crc CrcFacts Common SpecCommon CommonFacts Elements ElementsFacts ElementTypesFacts Mgmt SpecMgmt MgmtFacts2
  CryptoHeader Amsdu Data SpecData DataFacts DataFacts2 DataFacts3 DataFacts4 DataFacts5 SpecForward.

Section Facts.
Context {cfg : Cfg}.

(** ** Iterators *)
Section Generic.
Variable A : Type.
Variable r : reader A.
Variable next : option bytes -> Res serr (option A * option bytes).
Hypothesis next_eq : forall st, next st = iter_next r st.
Hypothesis P : TakesBytes r.

(** the items that are still to come *)
Inductive Coming : option bytes -> list A -> Prop :=
| cm_done : Coming None []
| cm_stop bs e : r bs = Err e -> Coming (Some bs) []
| cm_step bs x n xs : r bs = Ok (x, n) -> n <= length bs -> Coming (Some (skipn n bs)) xs -> Coming (Some bs) (x :: xs).
Lemma collect_coming fuel : forall st xs, iter_collect fuel r st = Ok xs -> Coming st xs.
Proof.
  induction fuel as [|fuel IH]; intros st xs; cbn [iter_collect]; [discriminate|].
  destruct st as [bs|]; cbn [iter_next rbind]; [|intros [= <-]; constructor].
  destruct (r bs) as [[x n]|e|] eqn:E; cbn [rbind]; [|intros [= <-]; econstructor; eauto|discriminate].
  unfold slice_from. destruct (Nat.leb_spec n (length bs)) as [L|L]; cbn [rbind]; [|discriminate].
  match goal with |- (_ <- ?c ;; _) = _ -> _ => destruct c as [ys| |] eqn:C end; cbn [rbind]; try discriminate.
  intros H. injection H as <-. econstructor; eauto.
Qed.
Lemma coming_collect st xs : Coming st xs -> forall fuel, length (unread st) < fuel -> iter_collect fuel r st = Ok xs.
Proof.
  induction 1 as [|bs e E|bs x n xs E L _ IH]; intros [|fuel] F; try lia; cbn [iter_collect iter_next rbind]; [reflexivity|now rewrite E|].
  rewrite E. rewrite slice_from_ok by exact L. cbn [rbind].
  cbn [unread] in *. rewrite IH; [reflexivity|]. rewrite skipn_length. pose proof (P _ _ _ E). lia.
Qed.
Lemma call_none k : call_next next k None = Ok (repeat None k, None).
Proof. induction k as [|k IH]; cbn [call_next repeat]; [reflexivity|]. rewrite next_eq. cbn [iter_next rbind]. rewrite IH. reflexivity. Qed.
Lemma call_coming st all : Coming st all -> forall k, exists xs m st', call_next next k st = Ok (map Some xs ++ repeat None m, st') /\ length xs + m = k /\
  match st' with
  | Some rest => m = 0 /\ (exists used, unread st = used ++ rest) /\ exists later, all = xs ++ later /\ Coming (Some rest) later
  | None => (0 < m \/ st = None) /\ all = xs
  end.
Proof.
  induction 1 as [|bs e E|bs x n all E L C IH]; intros k.
  - exists [], k, None. rewrite call_none. cbn. auto.
  - destruct k as [|k].
    + exists [], 0, (Some bs). cbn. repeat split; auto; [now exists []|]. exists []. split; [reflexivity|]. econstructor; eauto.
    + exists [], (S k), None. cbn [call_next]. rewrite next_eq. cbn [iter_next]. rewrite E. cbn [rbind]. rewrite call_none. cbn. repeat split; auto. left. lia.
  - destruct k as [|k].
    + exists [], 0, (Some bs). cbn. repeat split; auto; [now exists []|]. exists (x :: all). split; [reflexivity|]. econstructor; eauto.
    + destruct (IH k) as (xs & m & st' & CN & LN & Q). exists (x :: xs), m, st'. cbn [call_next]. rewrite next_eq. cbn [iter_next].
      rewrite E, slice_from_ok by exact L. cbn [rbind].
      match type of CN with ?c = _ => match goal with |- context [call_next next k ?s] => change (call_next next k s) with c end end.
      rewrite CN. cbn [rbind map app length]. split; [reflexivity|]. split; [lia|].
      destruct st' as [rest|].
      * destruct Q as (M & (used & U) & later & -> & CL). split; [exact M|]. split; [|exists later; auto].
        exists (firstn n bs ++ used). cbn [unread] in *. rewrite <- app_assoc, <- U. now rewrite firstn_skipn.
      * destruct Q as ([M|M] & ->); [auto|discriminate].
Qed.
Lemma traversal items bs all k : (forall bs xs, Coming (Some bs) xs -> items bs = Ok xs) -> Coming (Some bs) all -> Traversal next items bs all k.
Proof.
  intros I C. destruct (call_coming _ _ C k) as (xs & m & st & CN & LN & Q). exists xs, m, st. split; [exact CN|]. split; [exact LN|].
  destruct st as [rest|].
  - destruct Q as (M & U & later & E & CL). split; [exact M|]. split; [exact U|]. exists later. auto.
  - destruct Q as ([M|M] & ->); [auto|discriminate].
Qed.
End Generic.

Lemma iter_traversal {A} (r : reader A) bs all k : TakesBytes r -> iter_all r bs = Ok all ->
  Traversal (iter_next r) (iter_all r) bs all k.
Proof.
  intros P E. apply (traversal A r); auto.
  - intros b xs C. unfold iter_all. apply (coming_collect _ _ P _ _ C). cbn. lia.
  - exact (collect_coming _ _ _ _ _ E).
Qed.
Lemma iter_forward st : Writes (iter_write st) (unread st) /\ (unread st <> [] -> WritesT (iter_write st) (unread st)) /\
  iter_measure st = length (unread st).
Proof.
  split; [apply (pwrite0_W (wr_bytes (unread st))), wr_bytes_W|]. split; [|now destruct st].
  intros N. apply (pwrite0_T (wr_bytes (unread st))); [apply wr_bytes_T|exact N].
Qed.
Lemma iter_len_bytes st : iter_len st = length (unread st).
Proof. now destruct st. Qed.
Lemma iter_len_one {A} (r : reader A) bs : OneByteItems r -> exists all, iter_all r bs = Ok all /\ iter_len (Some bs) = length all.
Proof.
  intros [[e E] R]. cbn [iter_len]. unfold iter_all. induction bs as [|b bs (all & C & L)].
  - exists []. cbn [length iter_collect iter_next]. now rewrite E.
  - destruct (R b bs) as [x Ex]. exists (x :: all). cbn [length]. cbn [iter_collect iter_next]. rewrite Ex.
    unfold slice_from. cbn [length Nat.leb skipn rbind]. cbn [iter_collect] in C. rewrite C. cbn [rbind]. now rewrite L.
Qed.
Lemma iter_len_fixed {A} (r : reader A) size st : 0 < size -> ItemsOf size r ->
  exists later, iter_collect (S (length (unread st))) r st = Ok later /\ length later = iter_len st / size.
Proof.
  intros P [Sh Lo]. rewrite iter_len_bytes. destruct st as [bs|]; cbn [unread].
  - remember (S (length bs)) as f eqn:Ef. assert (F : length bs < f) by lia. clear Ef. revert bs F.
    induction f as [|f IH]; intros bs F; [lia|]. cbn [iter_collect iter_next]. destruct (Nat.lt_ge_cases (length bs) size) as [L|L].
    + destruct (Sh bs L) as [e E]. rewrite E. cbn [rbind]. exists []. split; [reflexivity|]. now rewrite Nat.div_small.
    + destruct (Lo bs L) as [x E]. rewrite E. unfold slice_from. destruct (Nat.leb_spec size (length bs)); [|lia]. cbn [rbind].
      destruct (IH (skipn size bs)) as (later & C & N); [rewrite skipn_length; lia|]. rewrite C. cbn [rbind].
      exists (x :: later). split; [reflexivity|]. cbn [length]. rewrite N, skipn_length.
      replace (length bs) with (length bs - size + 1 * size) at 2 by lia. rewrite Nat.div_add by lia. lia.
  - exists []. split; [reflexivity|]. cbn [length]. now rewrite Nat.div_small.
Qed.

(** ** A-MSDUs *)
Lemma rd_subframe_takes : TakesBytes rd_subframe.
Proof.
  intros bs x n. unfold rd_subframe. intros R. rinv R. injection R as _ <-. rewrite round4_pad. lia.
Qed.
Lemma sub_next_iter st : sub_next st = iter_next rd_subframe st.
Proof.
  destruct st as [bs|]; [|reflexivity]. unfold sub_next, iter_next, gread. cbn [skipn].
  unfold end_bad. destruct strict_end.
  - destruct bs as [|b bs]; cbn [length Nat.leb]; [|destruct (rd_subframe (b :: bs)) as [[s n]| |]; reflexivity].
    destruct (rd_subframe []) as [[s n]|e|] eqn:E; [|reflexivity|now apply rd_subframe_NP in E].
    exfalso. unfold rd_subframe in E. rinv E. cbn [length] in *. lia.
  - cbn [Nat.ltb]. destruct (Nat.ltb_spec (length bs) 0); [lia|]. destruct (rd_subframe bs) as [[s n]| |]; reflexivity.
Qed.
Lemma sub_collect_iter fuel : forall st, length (unread st) < fuel -> sub_collect fuel st = iter_collect fuel rd_subframe st.
Proof.
  induction fuel as [|fuel IH]; intros st L; [lia|]. cbn [sub_collect iter_collect]. rewrite sub_next_iter.
  destruct st as [bs|]; [|reflexivity]. cbn [iter_next].
  destruct (rd_subframe bs) as [[s n]|e|] eqn:E; [|reflexivity|reflexivity].
  unfold slice_from. destruct (Nat.leb_spec n (length bs)) as [B|B]; cbn [rbind]; [|reflexivity].
  rewrite IH; [reflexivity|]. cbn [unread] in *. rewrite skipn_length. pose proof (rd_subframe_takes _ _ _ E). lia.
Qed.
Lemma amsdu_traversal bs all k : amsdu_items bs = Ok all -> Traversal sub_next amsdu_items bs all k.
Proof.
  unfold amsdu_items. intros E. rewrite sub_collect_iter in E by (cbn; lia).
  apply (traversal _ rd_subframe sub_next sub_next_iter).
  - intros b xs C. rewrite sub_collect_iter by (cbn; lia). apply (coming_collect _ _ rd_subframe_takes _ _ C). cbn. lia.
  - exact (collect_coming _ _ _ _ _ E).
Qed.
Lemma amsdu_iter_bytes st : amsdu_iter_length st = length (unread st) /\
  Writes (c_write (c_payload (Pl_AMSDU st))) (unread st) /\ c_measure (c_payload (Pl_AMSDU st)) = length (unread st).
Proof.
  split; [now destruct st|]. split; [|now destruct st]. cbn [c_write c_payload]. apply (pwrite0_W (wr_bytes (unread st))), wr_bytes_W.
Qed.

(** ** Received data frames *)
Lemma fcf_byte b0 subtype flags : (b0 < 256)%N -> ((b0 / 4) mod 4 = 2)%N -> subtype = ((b0 / 16) mod 16)%N -> (b0 mod 4 = 0)%N ->
  enc_fcf 2 subtype flags = [b0; flags].
Proof. intros B T -> V. unfold enc_fcf. f_equal. lia. Qed.
Lemma data_forward fcs bs h p n : wf_bytes bs -> native_le = true -> rd_data fcs bs = Ok ((h, p), n) ->
  (nth 0 bs 0 mod 4 = 0)%N -> (p = None -> length bs = n + if fcs then 4 else 0) ->
  Writes (wr_data (h, match p with Some b => Some (c_bytes b) | None => None end) fcs) bs /\
  data_length (h, p) + (if fcs then 4 else 0) = length bs /\
  (forall b mic pl, p = Some b -> potentially_wrapped_payload (h, p) mic = Ok (Some (Unwrapped _ pl)) ->
     Writes (wr_data (h, Some (c_payload pl)) fcs) bs /\ payload_length pl = length b /\ data_measure (h, Some (c_payload pl)) fcs = length bs).
Proof.
  intros W NL R V NP.
  assert (X : exists f, bs = enc_frame fcs f /\ rd_data false f = Ok ((h, p), n) /\ wf_bytes f /\ length bs = length f + (if fcs then 4 else 0)).
  { destruct fcs.
    - rewrite rd_data_fcs in R. destruct (strip_and_validate_fcs bs) as [f| |] eqn:S; cbn [rbind] in R; try discriminate.
      apply (strip_fcs_spec bs W) in S. exists f. split; [exact S|]. split; [exact R|]. subst bs. split; [now apply wf_bytes_app in W|].
      rewrite app_length, le_bytes_length. reflexivity.
    - exists bs. split; [reflexivity|]. split; [exact R|]. split; [exact W|]. lia. }
  destruct X as (f & Eb & Rf & Wf & Lb). pose proof (rd_data_spec f Wf NL) as S. rewrite Rf in S.
  destruct S as (b0 & body & H & B0 & T & SN & Ef & En & Ep).
  assert (V0 : (b0 mod 4 = 0)%N).
  { rewrite Eb in V. destruct fcs; cbn [enc_frame] in V; rewrite Ef in V; exact V. }
  assert (EE : f = enc_data h body).
  { unfold enc_data. rewrite (fcf_byte b0 _ _ B0 T SN V0). exact Ef. }
  assert (Lf : length f = dh_length h + length body) by (rewrite EE; now apply enc_data_length).
  assert (Wb : wf_bytes body).
  { rewrite Ef in Wf. apply wf_bytes_app in Wf as [_ Wf]. now apply wf_bytes_app in Wf as [_ Wf]. }
  rewrite Eb, EE. destruct (std_has_payload (subtype_number h)) eqn:SP; subst p.
  - assert (PO : forall c, Writes (c_write c) body -> payload_ok h (Some c) body) by (intros c Wc; cbn; auto).
    split; [refine (proj1 (wr_data_W h _ body fcs H _)); apply PO, c_bytes_T|].
    split. { rewrite <- EE, <- Eb, Lb, Lf. reflexivity. }
    intros b mic pl [= <-] PW.
    assert (PL : pl = Pl_Single body \/ pl = Pl_AMSDU (Some body)).
    { unfold potentially_wrapped_payload in PW. cbn [fst snd] in PW. destruct (protected (dh_flags h)).
      - destruct mic as [mic|]; [|discriminate]. destruct (res_unwrap _); discriminate.
      - unfold pread, gread in PW. destruct (end_bad 0 (length body)); [discriminate|]. cbn [skipn rd_payload res_ok rbind] in PW.
        injection PW as <-. destruct (is_amsdu h); auto. }
    split; [refine (proj1 (wr_data_W h _ body fcs H _)); apply PO, Pl_writes, PL|].
    assert (LP : payload_length pl = length body) by (destruct PL as [-> | ->]; reflexivity). split; [exact LP|].
    rewrite (data_measures h (Some (c_payload pl)) body fcs H); [reflexivity|exact LP].
  - assert (body = []) as ->.
    { specialize (NP eq_refl). destruct body; [reflexivity|cbn [length] in Lf; lia]. }
    split; [refine (proj1 (wr_data_W h None [] fcs H _)); split; auto|].
    split. { rewrite <- EE, <- Eb, Lb, Lf. reflexivity. }
    discriminate.
Qed.
(** what is left in place of the version bits and of bytes behind a null frame *)
Lemma data_forward_drops fcs h p n bs : wf_bytes bs -> native_le = true -> rd_data fcs bs = Ok ((h, p), n) ->
  data_length (h, p) = match p with Some b => n + length b | None => n end.
Proof.
  intros W NL R.
  assert (X : exists f, rd_data false f = Ok ((h, p), n) /\ wf_bytes f).
  { destruct fcs; [|eauto]. rewrite rd_data_fcs in R. destruct (strip_and_validate_fcs bs) as [f| |] eqn:S; cbn [rbind] in R; try discriminate.
    apply (strip_fcs_spec bs W) in S. exists f. split; [exact R|]. subst bs. now apply wf_bytes_app in W. }
  destruct X as (f & Rf & Wf). pose proof (rd_data_spec f Wf NL) as S. rewrite Rf in S.
  destruct S as (b0 & body & H & B0 & T & SN & Ef & En & Ep). subst n. unfold data_length. cbn [fst snd]. destruct p; lia.
Qed.

(** ** Piggybacked acknowledgements and polls *)
Lemma piggyback h : ok_data_header h -> subtype_number h <> 13%N ->
  is_no_cf h = negb (N.testbit (subtype_number h) 0) && negb (N.testbit (subtype_number h) 1) /\
  is_cf_ack h = N.testbit (subtype_number h) 0 && negb (N.testbit (subtype_number h) 1) /\
  is_cf_poll h = negb (N.testbit (subtype_number h) 0) && N.testbit (subtype_number h) 1 /\
  is_cf_ack_poll h = N.testbit (subtype_number h) 0 && N.testbit (subtype_number h) 1.
Proof.
  intros (C & _) N13. unfold subtype_number, is_no_cf, is_cf_ack, is_cf_poll, is_cf_ack_poll in *.
  destruct (dh_subtype h) eqn:E; cbn [data_subtype_into_bits] in *; try (now repeat split).
  exfalso. cbn [canonical_frame_type data_subtype_into_bits] in C. destruct C as [B C]. cbn [data_subtype_into_bits] in B, C.
  revert N13. assert (X : forallb (fun x => match data_subtype_from_bits x with Dt_Unknown _ => (x =? 13)%N | _ => true end) (map N.of_nat (seq 0 16)) = true) by reflexivity.
  rewrite forallb_forall in X. specialize (X n). rewrite C in X. intros N13. apply N13, N.eqb_eq, X. apply in_map_iff. exists (N.to_nat n). split; [lia|]. apply in_seq. lia.
Qed.
End Facts.

(** ** Witnesses *)
Definition null_frame : bytes := [72; 0; 0; 0; 1; 1; 1; 1; 1; 1; 2; 2; 2; 2; 2; 2; 3; 3; 3; 3; 3; 3; 0; 0]%N.
Lemma forward_refuted {cfg : Cfg} : native_le = true ->
  (exists h p n buf m, rd_data false (null_frame ++ [7%N]) = Ok ((h, p), n) /\
     wr_data (h, match p with Some b => Some (c_bytes b) | None => None end) false (repeat 0%N 64) = Ok (buf, m) /\ m = 24 /\ firstn m buf = null_frame) /\
  (exists h p n buf m, rd_data false (73%N :: tl null_frame) = Ok ((h, p), n) /\
     wr_data (h, match p with Some b => Some (c_bytes b) | None => None end) false (repeat 0%N 64) = Ok (buf, m) /\ m = 24 /\ firstn m buf = null_frame).
Proof. destruct cfg as [[] [] []]; cbn; try discriminate; intros _; split; do 5 eexists; repeat split. Qed.
Lemma iter_len_pmkid : exists all, iter_all (rd_bytes 16) (repeat 7%N 32) = Ok all /\ length all = 2 /\ iter_len (Some (repeat 7%N 32)) = 32.
Proof. eexists; repeat split. Qed.
