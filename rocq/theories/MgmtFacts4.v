(** Proofs about frames built step by step. *)
From Verif Require Import Base BaseFacts Bits Layouts BitsFacts Enums EnumsFacts Common SpecBase SpecCommon CommonFacts Crc CrcFacts
  Elements SpecElements ElementsFacts ElementTypes SpecElementTypes ElementTypesFacts StepsFacts Mgmt SpecMgmt MgmtFacts MgmtFacts2 MgmtFacts3.

Lemma app_inj_tail_bytes (a b c d : bytes) : a ++ b = c ++ d -> length b = length d -> a = c.
Proof.
  intros E L. assert (La : length a = length c) by (apply (f_equal (@length N)) in E; rewrite !app_length in E; lia).
  apply (f_equal (firstn (length a))) in E. now rewrite !firstn_app_exact in E by auto.
Qed.

Section Facts.
Context {cfg : Cfg}.
(** the state after writing [p] into a buffer of [len] bytes *)
Definition holds (len : nat) (st : bytes * nat) (p : bytes) : Prop :=
  exists rest, st = (p ++ rest, length p) /\ length (p ++ rest) = len.

Lemma dyn_new_holds frame mpdu buf st : Writes (frame false) mpdu -> dyn_new frame buf = Ok st ->
  holds (length buf) st mpdu.
Proof.
  intros W E. unfold dyn_new in E. pose proof (pwrite0_W _ _ W) as [A _].
  destruct (A buf) as [[L E']|[e E']]; rewrite E' in E; [|discriminate]. injection E as <-.
  exists (skipn (length mpdu) buf). split; [reflexivity|]. rewrite app_length, skipn_length. lia.
Qed.
Lemma call_writes c raw : call_element c raw -> Writes (wr_wrapped (fst c)) (enc_element raw).
Proof. intros (id & body & W & I & -> & F). now apply wr_wrapped_W. Qed.
Lemma gwrite_tail w bs p rest : Writes w bs ->
  (length bs <= length rest /\ gwrite w (p ++ rest) (length p) = Ok ((p ++ bs) ++ skipn (length bs) rest, length (p ++ bs)))
  \/ exists e, gwrite w (p ++ rest) (length p) = Err e.
Proof.
  intros W. destruct (gwrite_state w bs p (p ++ rest) W) as [[L E]|[e E]]; [rewrite app_length; lia| |].
  - rewrite skipn_app_exact in E by reflexivity. left. rewrite !app_length in L. split; [lia|]. rewrite E.
    do 3 f_equal. rewrite app_length, <- skipn_skipn_add. now rewrite skipn_app_exact.
  - rewrite skipn_app_exact in E by reflexivity. right. eauto.
Qed.
Lemma dyn_add_spec c raw p rest : call_element c raw ->
  (length (enc_element raw) + slack <= length rest -> exists st, dyn_add (fst c) (p ++ rest, length p) = Ok st) /\
  (length rest < length (enc_element raw) -> exists e, dyn_add (fst c) (p ++ rest, length p) = Err e) /\
  dyn_add (fst c) (p ++ rest, length p) <> Panic /\
  (forall st, dyn_add (fst c) (p ++ rest, length p) = Ok st -> holds (length (p ++ rest)) st (p ++ enc_element raw)).
Proof.
  intros C. apply call_writes in C. unfold dyn_add. cbn [fst snd].
  assert (G := gwrite_tail _ _ p rest C). split; [|split; [|split]].
  - intros L. pose proof (gwrite_state_ok _ _ p (p ++ rest) C) as E. rewrite skipn_app_exact in E by reflexivity.
    rewrite E by (rewrite app_length; lia). eauto.
  - intros L. destruct G as [[G _]|G]; [lia|exact G].
  - destruct G as [[_ G]|[e G]]; rewrite G; discriminate.
  - intros st E. destruct G as [[L G]|[e G]]; rewrite G in E; [|discriminate].
    exists (skipn (length (enc_element raw)) rest). split; [congruence|]. rewrite !app_length, skipn_length. lia.
Qed.
Lemma dyn_step_holds len st c st' raw p : call_element c raw -> holds len st p -> dyn_step st c st' ->
  holds len st' (p ++ enc_elements (added [c] [raw])).
Proof.
  intros C (rest & -> & L) S. inversion S as [st0 e st1 E|buf off e err junk E Lj]; subst; cbn [added].
  - destruct (dyn_add_spec _ raw p rest C) as (_ & _ & _ & K). cbn [fst] in K. specialize (K _ E).
    unfold enc_elements. cbn [map concat]. now rewrite app_nil_r.
  - unfold enc_elements. cbn [map concat]. rewrite app_nil_r, firstn_app_exact by reflexivity.
    exists junk. split; [reflexivity|]. rewrite app_length in Lj. rewrite !app_length. lia.
Qed.
Lemma added_cons c calls raw raws : added (c :: calls) (raw :: raws) = added [c] [raw] ++ added calls raws.
Proof. destruct c as [e []]; reflexivity. Qed.
Lemma dyn_steps_holds len st calls st' : dyn_steps st calls st' -> forall raws p,
  Forall2 call_element calls raws -> holds len st p -> holds len st' (p ++ enc_elements (added calls raws)).
Proof.
  induction 1 as [st|st c st1 calls st2 S _ IH]; intros raws p F H.
  - inversion F; subst. cbn [added]. unfold enc_elements. cbn [map concat]. now rewrite app_nil_r.
  - inversion F as [|? raw ? raws' C F']; subst. rewrite added_cons.
    pose proof (dyn_step_holds _ _ _ _ raw p C H S) as H1. specialize (IH raws' _ F' H1).
    unfold enc_elements in *. rewrite map_app, concat_app. now rewrite app_assoc.
Qed.
Lemma dyn_finish_spec len st p : holds len st p ->
  (exists buf', dyn_finish false st = Ok (buf', length p) /\ firstn (length p) buf' = p) /\
  (length p + 4 <= len -> exists buf', dyn_finish true st = Ok (buf', length p + 4) /\
     firstn (length p + 4) buf' = p ++ ne_bytes 4 (crc32 p) /\ length buf' = len) /\
  (len < length p + 4 -> exists e, dyn_finish true st = Err e).
Proof.
  intros (rest & -> & L). rewrite app_length in L. cbn [dyn_finish]. split; [|split].
  - eexists. split; [reflexivity|]. now apply firstn_app_exact.
  - intros R. rewrite slice_to_ok by (rewrite app_length; lia). cbn [rbind].
    rewrite firstn_app_exact by reflexivity. rewrite wr_ne_eq.
    pose proof (gwrite_state_T (wr_bytes (ne_bytes 4 (crc32 p))) _ p (p ++ rest) (wr_bytes_T _)) as E.
    rewrite skipn_app_exact in E by reflexivity. rewrite E.
    + rewrite app_length, ne_bytes_length. eexists. split; [reflexivity|]. split.
      * apply firstn_app_exact. now rewrite app_length, ne_bytes_length.
      * rewrite !app_length, skipn_length, app_length, ne_bytes_length. lia.
    + apply ne_bytes_ne. discriminate.
    + rewrite ne_bytes_length, app_length. lia.
  - intros R. rewrite slice_to_ok by (rewrite app_length; lia). cbn [rbind].
    rewrite firstn_app_exact by reflexivity. rewrite wr_ne_eq.
    destruct (gwrite_tail (wr_bytes (ne_bytes 4 (crc32 p))) _ p rest (wr_bytes_W _)) as [[E _]|E]; [|exact E].
    rewrite ne_bytes_length in E. lia.
Qed.
(** every history *)
Lemma dyn_history frame mpdu buf st0 calls raws st : Writes (frame false) mpdu ->
  dyn_new frame buf = Ok st0 -> dyn_steps st0 calls st -> Forall2 call_element calls raws ->
  let p := mpdu ++ enc_elements (added calls raws) in
  length (fst st) = length buf /\ snd st = length p /\ length p <= length buf /\ firstn (length p) (fst st) = p.
Proof.
  intros W N S F p. pose proof (dyn_steps_holds _ _ _ _ S raws mpdu F (dyn_new_holds _ _ _ _ W N)) as (rest & -> & L).
  fold p in L |- *. cbn [fst snd]. split; [exact L|]. split; [reflexivity|]. rewrite app_length in L. split; [lia|].
  now apply firstn_app_exact.
Qed.
Lemma dyn_next frame mpdu buf st0 calls raws st e raw b : Writes (frame false) mpdu ->
  dyn_new frame buf = Ok st0 -> dyn_steps st0 calls st -> Forall2 call_element calls raws -> call_element (e, b) raw ->
  let used := length (mpdu ++ enc_elements (added calls raws)) in
  (used + length (enc_element raw) + slack <= length buf -> exists st', dyn_add e st = Ok st') /\
  (length buf < used + length (enc_element raw) -> exists err, dyn_add e st = Err err) /\
  dyn_add e st <> Panic.
Proof.
  intros W N S F C used. pose proof (dyn_steps_holds _ _ _ _ S raws mpdu F (dyn_new_holds _ _ _ _ W N)) as (rest & -> & L).
  fold used. rewrite app_length in L. fold used in L.
  destruct (dyn_add_spec (e, b) raw (mpdu ++ enc_elements (added calls raws)) rest C) as (A & B & D & _). cbn [fst] in *.
  fold used in A, B, D. repeat split; intros; [apply A; lia|apply B; lia|exact D].
Qed.
Lemma dyn_result frame mpdu buf st0 calls raws st fcs : Writes (frame false) mpdu ->
  dyn_new frame buf = Ok st0 -> dyn_steps st0 calls st -> Forall2 call_element calls raws ->
  let p := mpdu ++ enc_elements (added calls raws) in
  dyn_finish fcs st <> Panic /\
  (length (enc_frame fcs p) <= length buf <-> exists r, dyn_finish fcs st = Ok r) /\
  (fcs = false \/ native_le = true -> forall buf' n, dyn_finish fcs st = Ok (buf', n) -> firstn n buf' = enc_frame fcs p).
Proof.
  intros W N S F p. pose proof (dyn_steps_holds _ _ _ _ S raws mpdu F (dyn_new_holds _ _ _ _ W N)) as H. fold p in H.
  assert (Lp : length p <= length buf) by (destruct H as (rest & _ & L); rewrite app_length in L; lia).
  destruct (dyn_finish_spec _ _ _ H) as ((b1 & E1 & F1) & E2 & E3). destruct fcs; cbn [enc_frame].
  - rewrite app_length, le_bytes_length. destruct (le_lt_dec (length p + 4) (length buf)) as [K|K].
    + destruct (E2 K) as (b2 & E & F2 & _). rewrite E. split; [discriminate|]. split; [split; eauto|].
      intros [Z|Z] buf' n [= <- <-]; [discriminate|]. rewrite F2. unfold ne_bytes. now rewrite Z.
    + destruct (E3 K) as (e & E). rewrite E. split; [discriminate|]. split; [|intros _ ? ? ?; discriminate].
      split; [lia|intros [r Z]; discriminate].
  - rewrite E1. split; [discriminate|]. split; [split; eauto|]. intros _ buf' n [= <- <-]. exact F1.
Qed.
(** the same bytes as written in one go *)
Lemma dyn_static {W R} (t : BodyType W R) subtype (ok : W -> Prop) fixed cont conv (empty_ok : Prop) :
  MgmtRoundTrip t subtype ok fixed cont conv empty_ok ->
  forall h w es w' buf st0 calls raws st fcs buf' n,
  ok_mgmt_header h -> ok w -> wf_bytes es -> Writes (c_write (cont w)) es ->
  into_dynamic t h w buf = Ok st0 -> dyn_steps st0 calls st -> Forall2 call_element calls raws ->
  dyn_finish fcs st = Ok (buf', n) -> fcs = false \/ native_le = true ->
  ok w' -> fixed w' = fixed w -> wf_bytes (enc_elements (added calls raws)) ->
  Writes (c_write (cont w')) (es ++ enc_elements (added calls raws)) ->
  Writes (wr_mgmt t h w' fcs) (firstn n buf') /\
  (empty_ok \/ end_ok (es ++ enc_elements (added calls raws)) ->
   pread (rd_mgmt t fcs) (firstn n buf') 0 = Ok (h, conv w' (es ++ enc_elements (added calls raws)))).
Proof.
  intros RT h w es w' buf st0 calls raws st fcs buf' n Hh Hw We Wr I S F E N Hw' Ef Wa Wr'.
  destruct (RT h w es false Hh Hw We Wr) as (A & _ & _). unfold into_dynamic in I.
  destruct (dyn_result _ _ _ _ _ _ _ fcs A I S F) as (_ & _ & C). specialize (C N _ _ E). rewrite C.
  destruct (RT h w' _ fcs Hh Hw' (proj2 (wf_bytes_app _ _) (conj We Wa)) Wr') as (A' & _ & B').
  assert (X : enc_mgmt subtype h (fixed w ++ es) ++ enc_elements (added calls raws)
              = enc_mgmt subtype h (fixed w' ++ es ++ enc_elements (added calls raws))).
  { unfold enc_mgmt. rewrite Ef, <- !app_assoc. reflexivity. }
  cbn [enc_frame]. rewrite X. split; [exact A'|exact B'].
Qed.

(** ** Reading and writing again *)
Lemma reserialise {W R} (t : BodyType W R) subtype (okW : W -> Prop) fixedW cont conv (empty_ok : Prop)
    (okR : R -> Prop) fixedR restR (canon : bytes -> Prop) (back : R -> W) :
  MgmtRoundTrip t subtype okW fixedW cont conv empty_ok -> MgmtLossless t okR fixedR restR canon ->
  (forall r, okR r -> okW (back r) /\ fixedW (back r) = fixedR r /\ Writes (c_write (cont (back r))) (restR r)) ->
  MgmtReserialise t subtype back canon.
Proof.
  intros RT LL BK fcs flags rest body h r n bs Wb E -> C.
  destruct (LL fcs bs h r n Wb E) as (Hh & b0 & body' & _ & _ & Eb & K).
  assert (X : enc_fcf 0 subtype flags ++ enc_mgmt_header h ++ body = [b0; mh_flags h] ++ enc_mgmt_header h ++ body').
  { unfold bs in Eb. destruct fcs; cbn [enc_frame] in Eb; [|exact Eb].
    assert (L := f_equal (@length N) Eb). rewrite !app_length, !le_bytes_length in L.
    apply app_inj_tail_bytes in Eb; [exact Eb|]. now rewrite !le_bytes_length. }
  assert (Y : flags = mh_flags h /\ body = body').
  { unfold enc_fcf in X. cbn [app] in X. injection X as _ X2 X3. apply app_inv_head in X3. auto. }
  destruct Y as [-> <-]. destruct (K C) as [Or Eb']. destruct (BK r Or) as (A & B & D).
  assert (Wm : wf_bytes (restR r)).
  { unfold bs in Wb. assert (Wm : wf_bytes (enc_fcf 0 subtype (mh_flags h) ++ enc_mgmt_header h ++ body))
      by (destruct fcs; cbn [enc_frame] in Wb; [now apply wf_bytes_app in Wb|exact Wb]).
    rewrite Eb', !wf_bytes_app in Wm. tauto. }
  destruct (RT h (back r) (restR r) fcs Hh A Wm D) as (Wr & _ & _).
  unfold bs. rewrite Eb', <- B. exact Wr.
Qed.
Lemma total {W R} (t : BodyType W R) : NoPanic (bt_read t) -> InBounds (bt_read t) -> MgmtTotal t.
Proof.
  intros NP IB. split; [now apply rd_mgmt_no_panic|]. split; [now apply rd_mgmt_fcs_panic|].
  intros fcs bs x n. now apply rd_mgmt_in_bounds.
Qed.
End Facts.
