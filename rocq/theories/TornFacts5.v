(** Proofs about what refused calls leave behind a frame built step by step (C74). *)
From Verif Require Import Base SpecBase BaseFacts Common Crc Elements SpecElements ElementsFacts Mgmt SpecMgmt MgmtFacts MgmtFacts2 MgmtFacts4
  Stores SpecTorn TornFacts TornFacts2 TornFacts3 TornFacts4.

Section Facts.
Context {cfg : Cfg}.
Lemma stray_trans old mid new l l' i : stray old mid l i -> stray mid new l' i -> stray old new (l ++ l') i.
Proof.
  intros [A|(o & bs & I & R & A)] [B|(o' & bs' & I' & R' & B)].
  - left. congruence.
  - right. exists o', bs'. split; [apply in_or_app; right; exact I'|]. auto.
  - right. exists o, bs. split; [apply in_or_app; left; exact I|]. split; [exact R|congruence].
  - right. exists o', bs'. split; [apply in_or_app; right; exact I'|]. auto.
Qed.
Lemma dyn_refused f e raw buf p rest b1 : Runs (e_write e) (f e) -> call_element (e, false) raw -> buf = p ++ rest ->
  LeftFrom [p_wrapped (e_id e) (e_measure e) (f e)] buf (length p) b1 ->
  dyn_step (buf, length p) (e, false) (b1, length p) /\ (exists rest1, b1 = p ++ rest1 /\ length b1 = length buf) /\
  forall i, length p <= i < length buf -> stray buf b1 [(length p, enc_element raw)] i.
Proof.
  intros R C E L. pose proof (call_writes _ _ C) as W. cbn [fst] in W.
  destruct (behind _ _ _ _ _ _ (runs_wrapped e (f e) R) W L) as [[err F] [Lb T]].
  assert (K : firstn (length p) b1 = p).
  { apply (nth_ext _ _ 0%N 0%N).
    - rewrite firstn_length. rewrite E, app_length in Lb. lia.
    - intros i Hi. rewrite firstn_length in Hi. rewrite nth_firstn'. destruct (Nat.ltb_spec i (length p)); [|lia].
      assert (Hi' : i < length buf) by (rewrite E, app_length; lia). specialize (T i Hi').
      rewrite nth_app', repeat_length in T. destruct (Nat.ltb_spec i (length p)); [|lia].
      rewrite nth_repeat_lt in T by lia. rewrite T, E, nth_app'. destruct (Nat.ltb_spec i (length p)); [reflexivity|lia]. }
  pose proof (firstn_skipn (length p) b1) as S. rewrite K in S.
  split; [|split].
  - assert (J : b1 = firstn (length p) buf ++ skipn (length p) b1) by (rewrite E, firstn_app_exact by reflexivity; now symmetry).
    rewrite J. apply (dyn_failed _ _ _ err); [exact F|]. rewrite skipn_length. lia.
  - exists (skipn (length p) b1). auto.
  - intros i Hi. specialize (T i ltac:(lia)). rewrite nth_app', repeat_length, nth_map_byte in T.
    destruct (Nat.ltb_spec i (length p)); [lia|]. destruct (Nat.ltb_spec (i - length p) (length (enc_element raw))) as [H'|H'].
    + destruct T as [T|T]; [left; exact T|right]. exists (length p), (enc_element raw). split; [left; reflexivity|]. split; [lia|exact T].
    + left. exact T.
Qed.
Lemma dyn_stores_steps f st calls st' : dyn_stores f st calls st' -> forall raws p, (forall e b, In (e, b) calls -> Runs (e_write e) (f e)) ->
  Forall2 call_element calls raws -> (exists rest, st = (p ++ rest, length p)) ->
  dyn_steps st calls st' /\
  forall i, length (p ++ enc_elements (added calls raws)) <= i < length (fst st) -> stray (fst st) (fst st') (refused_calls (length p) calls raws) i.
Proof.
  induction 1 as [st|st e st1 calls st' A _ IH|buf off e b1 calls st' L _ IH]; intros raws p R F (rest & E).
  - inversion F; subst. split; [apply dyn_done|]. intros i _. left. reflexivity.
  - inversion F as [|? raw ? raws' C F']; subst. pose proof (call_writes _ _ C) as W. cbn [fst] in W. pose proof A as A'.
    unfold dyn_add in A'. cbn [fst snd] in A'.
    destruct (gwrite_tail _ _ p rest W) as [[Lr G]|[err G]]; rewrite G in A'; [|discriminate].
    apply (f_equal (fun r => match r with Ok x => x | _ => st1 end)) in A'. subst st1.
    destruct (IH raws' (p ++ enc_element raw)) as [S1 S2]; [intros e' b' I; apply (R e' b'); right; exact I|exact F'|eauto|].
    split; [eapply Mgmt.dyn_next; [apply dyn_added; exact A|exact S1]|].
    intros i Hi. cbn [added refused_calls fst] in *. unfold enc_elements in Hi, S2. cbn [map concat] in Hi.
    assert (K : nth i ((p ++ enc_element raw) ++ skipn (length (enc_element raw)) rest) 0%N = nth i (p ++ rest) 0%N).
    { rewrite !app_length in Hi. rewrite (nth_app' (p ++ _)), (nth_app' p rest), app_length, nth_skipn'.
      destruct (Nat.ltb_spec i (length p + length (enc_element raw))); [lia|]. destruct (Nat.ltb_spec i (length p)); [lia|]. f_equal. lia. }
    rewrite <- (app_length p). unfold stray. rewrite <- K. apply S2. clear -Hi Lr. generalize dependent (enc_element raw). intros bs Hi Lr.
    cbn [fst]. rewrite !app_length in *. rewrite skipn_length. lia.
  - inversion F as [|? raw ? raws' C F']; subst. injection E as E1 E2. subst off.
    assert (Re : Runs (e_write e) (f e)) by (apply (R e false); left; reflexivity).
    destruct (dyn_refused f e raw buf p rest b1 Re C E1 L) as (D & (rest1 & B1 & Lb) & T).
    destruct (IH raws' p) as [S1 S2]; [intros e' b' I; apply (R e' b'); right; exact I|exact F'|exists rest1; now rewrite B1 at 1|].
    split; [eapply Mgmt.dyn_next; [exact D|exact S1]|].
    intros i Hi. cbn [added refused_calls fst] in *. rewrite Lb in S2.
    apply (stray_trans buf b1 (fst st') [(length p, enc_element raw)]); [|apply S2; exact Hi].
    apply T. rewrite app_length in Hi. lia.
Qed.
Lemma dyn_stray f frame mpdu buf st0 calls raws st : Writes (frame false) mpdu -> dyn_new frame buf = Ok st0 ->
  (forall e b, In (e, b) calls -> Runs (e_write e) (f e)) -> dyn_stores f st0 calls st -> Forall2 call_element calls raws ->
  dyn_steps st0 calls st /\
  forall i, length (mpdu ++ enc_elements (added calls raws)) <= i < length buf -> stray buf (fst st) (refused_calls (length mpdu) calls raws) i.
Proof.
  intros W N R S F. pose proof (pwrite0_W _ _ W) as [A _]. unfold dyn_new in N.
  destruct (A buf) as [[L E]|[err E]]; rewrite E in N; [|discriminate]. injection N as <-.
  destruct (dyn_stores_steps f _ _ _ S raws mpdu R F) as [S1 S2]; [eauto|]. split; [exact S1|].
  intros i Hi. cbn [fst] in S2.
  assert (Ll : length (mpdu ++ skipn (length mpdu) buf) = length buf) by (rewrite app_length, skipn_length; lia).
  rewrite Ll in S2. specialize (S2 i Hi).
  assert (K : nth i (mpdu ++ skipn (length mpdu) buf) 0%N = nth i buf 0%N).
  { rewrite app_length in Hi. rewrite nth_app', nth_skipn'. destruct (Nat.ltb_spec i (length mpdu)); [lia|]. f_equal. lia. }
  unfold stray in *. now rewrite <- K.
Qed.
Lemma dyn_refused_some f buf off e raw : Runs (e_write e) (f e) -> call_element (e, false) raw -> off <= length buf ->
  (exists err, dyn_add e (buf, off) = Err err) <-> exists b1, LeftFrom [p_wrapped (e_id e) (e_measure e) (f e)] buf off b1.
Proof.
  intros R C Lo. pose proof (call_writes _ _ C) as W. cbn [fst] in W. split.
  - intros [err E]. unfold dyn_add in E. cbn [fst snd] in E. unfold gwrite in E.
    destruct (end_bad off (length buf)) eqn:B; [exists buf; now apply LF_end|].
    destruct (proj2 (left_fails (p_wrapped (e_id e) (e_measure e) (f e)) (skipn off buf))) as [r Hr].
    { intros r Er. rewrite (runs_wrapped e (f e) R), Er in E. destruct r. discriminate. }
    exists (firstn off buf ++ r). now apply LF_here.
  - intros [b1 L]. apply (behind _ _ _ _ _ _ (runs_wrapped e (f e) R) W L).
Qed.
End Facts.
