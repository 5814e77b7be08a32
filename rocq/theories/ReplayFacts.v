(** Proofs: key frames received over any length of time. *)
From Verif Require Import Base SpecBase BaseFacts Suites Rsn Data SpecData Eapol SpecEapol EapolFacts KeyMgmt SpecKeyMgmt KeyMgmtFacts4 KeyMgmtFacts5 KeyMgmtFacts6
  TamperFacts SpecHandshake SpecArrival ArrivalFacts SpecReplay.

Section F.
Context {cfg : Cfg} (hmac : bytes -> bytes -> bytes) (wrap : bytes -> bytes -> bytes) (unwrap : bytes -> bytes -> option bytes)
  (HM : hmac_sha1 hmac) (KW : key_wrap wrap unwrap).

(** one frame *)
Lemma mic_input_split s : ok_sent s -> exists front, length front = 4 /\
  mic_input s = (front ++ received_fields (repeat 0%N 8) s) ++ repeat 0%N 16 ++ be_bytes 2 (N.of_nat (length (key_data s))) ++ key_data s.
Proof.
  intros _. unfold mic_input, enc_key_frame, enc_key_body.
  exists ([2; 3]%N ++ be_bytes 2 (N.of_nat (length (enc_key_body (with_mic s (repeat 0%N 16)))))). split.
  - rewrite app_length, be_bytes_length. reflexivity.
  - unfold enc_key_body. rewrite <- !app_assoc. reflexivity.
Qed.
Lemma received_fields_length r (k : KeyFrame bytes) : length (key_nonce k) = 32 -> length r = 8 -> length (received_fields r k) = 77.
Proof. intros A B. unfold received_fields. rewrite !app_length, !be_bytes_length, A, B. reflexivity. Qed.

Lemma heard kck kek b temp akm (with_fcs : bool) sent k : wf_bytes b -> key_mic_len akm = Some 16 -> Forall ok_sent sent ->
  deserialize_eapol hmac unwrap (Some kck) kek b temp akm with_fcs = Ok k -> N.testbit (key_information k) 8 = true ->
  ~ is_forged hmac kck with_fcs sent b -> exists s, In s sent /\ delivers hmac unwrap kck kek s k.
Proof.
  intros W KM OS D M NF.
  destruct (accepted hmac wrap unwrap HM KW _ _ _ _ _ _ _ W D) as (e & m & v & r & O & KM' & LM & Q & LR & L & _ & R & C & I & P & T).
  set (f := if with_fcs then firstn (length b - 4) b else b) in *.
  assert (m = 16) as -> by congruence. clear KM'.
  assert (X : has_mic (info_at f e)) by (unfold has_mic; now rewrite <- I).
  destruct (P X) as (key & K & _ & MC). injection K as <-. pose proof MC as MC'. destruct MC as [L2 Y].
  destruct (in_dec (list_eq_dec N.eq_dec) (between_bytes f e (e + 81) ++ repeat 0%N 16 ++ skipn (e + 81 + 16) f) (map mic_input sent)) as [J|J];
    [|exfalso; apply NF; exists e; auto].
  apply in_map_iff in J as (s & E & J). exists s. split; [exact J|].
  rewrite Forall_forall in OS. pose proof (OS s J) as OKS. destruct OKS as [OK LS].
  destruct (mic_input_split s (conj OK LS)) as (front & LF & ES).
  assert (EF : frame_mic hmac kck s = key_mic k) by (unfold frame_mic; fold (mic_input s); rewrite E, <- Y; exact C).
  rewrite ES in E.
  assert (LN : length (key_nonce s) = 32) by apply OK.
  assert (LB : length (between_bytes f e (e + 81)) = 81) by (unfold between_bytes; rewrite firstn_length, skipn_length; lia).
  apply app_inj_len in E as [E1 E]; [|rewrite LB, app_length, LF, received_fields_length; [reflexivity|exact LN|reflexivity]].
  apply app_inv_head in E.
  assert (F : received_fields (repeat 0%N 8) s = received_fields r k).
  { rewrite <- R. rewrite (between_in f e) by lia. rewrite <- E1. replace (e + 4 - e) with (length front) by lia. now rewrite skipn_app_exact. }
  destruct (received_fields_inj s k _ _ OK Q F) as (G1 & G2 & G3 & G4 & G5 & G6).
  assert (BD : (N.of_nat (length (key_data s)) < 65536)%N) by (destruct OK as (_ & _ & _ & _ & _ & _ & _ & _ & _ & B); lia).
  assert (DL : data_length_at f e 16 = length (key_data s)).
  { unfold data_length_at, between_bytes. rewrite <- E. replace (e + 81 + 16 + 2 - (e + 81 + 16)) with (length (be_bytes 2 (N.of_nat (length (key_data s))))) by (rewrite be_bytes_length; lia).
    rewrite firstn_app_exact by reflexivity. rewrite be_val_bytes_small by exact BD. now rewrite Nnat.Nat2N.id. }
  assert (DD : between_bytes f (e + 81 + 16 + 2) (e + 81 + 16 + 2 + data_length_at f e 16) = key_data s).
  { rewrite DL. rewrite (between_skip f (e + 81 + 16)) by lia. rewrite <- E.
    replace (e + 81 + 16 + 2 - (e + 81 + 16)) with (length (be_bytes 2 (N.of_nat (length (key_data s))))) by (rewrite be_bytes_length; lia).
    rewrite skipn_app_exact by reflexivity.
    replace (e + 81 + 16 + 2 + length (key_data s) - (e + 81 + 16 + 2)) with (length (key_data s)) by lia. apply firstn_all. }
  cbn zeta in T. rewrite DD in T. split; [unfold same_fields; now rewrite G1, G2, G3, G4, G5, G6|].
  split; [now rewrite EF|]. now rewrite G1.
Qed.

(** ** Order *)
Lemma increasing_sub (l l' : list (KeyFrame bytes)) : increasing l -> increasing l' -> Forall (fun s => In s l') l -> subsequence l l'.
Proof.
  revert l. induction l' as [|x l' IH]; intros l I I' A.
  - destruct l as [|y l]; [constructor|]. inversion A as [|? ? [] _].
  - destruct l as [|y l].
    + clear. constructor. induction l'; constructor; auto.
    + destruct I as [Iy I]. destruct I' as [Ix I']. inversion A as [|? ? Ay At]; subst. destruct Ay as [->|Ay].
      * apply sub_take. apply IH; auto. rewrite Forall_forall in *. intros z Z. destruct (At z Z) as [->|Q]; [|exact Q].
        specialize (Iy _ Z). lia.
      * apply sub_skip. apply IH; [now split|exact I'|]. constructor; [exact Ay|]. rewrite Forall_forall in *. intros z Z.
        destruct (At z Z) as [->|Q]; [|exact Q]. specialize (Iy _ Z). specialize (Ix _ Ay). lia.
Qed.

Section R.
Variables (kck : bytes) (kek : option bytes) (temp : nat) (akm : AkmType) (with_fcs : bool) (wanted : N -> bool).
Hypothesis KM : key_mic_len akm = Some 16.
Notation hear := (fun b => deserialize_eapol hmac unwrap (Some kck) kek b temp akm with_fcs).
Notation run := (receiver hear wanted).
Notation gives := (delivers hmac unwrap kck kek).

Lemma gives_fields s k : gives s k -> key_information k = key_information s /\ key_replay_counter k = key_replay_counter s.
Proof. intros [(A & _ & B & _) _]. auto. Qed.
Lemma gives_chosen s k : gives s k -> chosen wanted k = chosen wanted s.
Proof. intros G. apply gives_fields in G as [G _]. unfold chosen. now rewrite G. Qed.

Lemma run_from sent air last : Forall wf_bytes air -> Forall ok_sent sent -> Forall (fun b => ~ is_forged hmac kck with_fcs sent b) air ->
  exists l, Forall2 gives l (run last air) /\ Forall (fun s => In s (filter (chosen wanted) sent)) l /\ increasing l /\
    Forall (fun s => newer last (key_replay_counter s) = true) l.
Proof.
  intros W OS NF. revert last. induction air as [|b air IH]; intros last.
  - exists []. repeat split; constructor.
  - inversion W as [|? ? Wb W']; subst. inversion NF as [|? ? Nb NF']; subst. specialize (IH W' NF').
    cbn [receiver]. destruct (deserialize_eapol _ _ _ _ b _ _ _) as [k|er|] eqn:D; [|apply IH|exists []; repeat split; constructor].
    destruct (chosen wanted k) eqn:CH; cbn [andb]; [|apply IH]. destruct (newer last (key_replay_counter k)) eqn:NW; [|apply IH].
    assert (B8 : N.testbit (key_information k) 8 = true) by (unfold chosen in CH; now apply andb_prop in CH).
    destruct (heard _ _ _ _ _ _ _ _ Wb KM OS D B8 Nb) as (s & J & G).
    destruct (IH (Some (key_replay_counter k))) as (l & F2 & IN & INC & NE).
    destruct (gives_fields _ _ G) as [_ GC].
    exists (s :: l). split; [now constructor|]. split; [|split; [split; [|exact INC]|]].
    + constructor; [|exact IN]. apply filter_In. split; [exact J|]. now rewrite <- (gives_chosen _ _ G).
    + eapply Forall_impl; [|exact NE]. intros s' E. cbn [newer] in E. apply N.ltb_lt in E. now rewrite <- GC.
    + constructor; [now rewrite <- GC|]. eapply Forall_impl; [|exact NE]. intros s' E. cbn [newer] in E. apply N.ltb_lt in E.
      destruct last as [n|]; [|reflexivity]. cbn [newer] in *. apply N.ltb_lt in NW. apply N.ltb_lt. lia.
Qed.

Theorem in_order sent air last : Forall wf_bytes air -> Forall ok_sent sent -> increasing (filter (chosen wanted) sent) ->
  Forall (fun b => ~ is_forged hmac kck with_fcs sent b) air ->
  exists l, subsequence l (filter (chosen wanted) sent) /\ Forall2 gives l (run last air) /\
    Forall (fun s => newer last (key_replay_counter s) = true) l.
Proof.
  intros W OS I NF. destruct (run_from sent air last W OS NF) as (l & F2 & IN & INC & NE). exists l.
  split; [now apply increasing_sub|]. now split.
Qed.

(** ** Every frame arrives *)
(** nothing newer is heard *)
Lemma run_quiet past air rest last : Forall wf_bytes air -> Forall ok_sent past -> Forall (fun b => ~ is_forged hmac kck with_fcs past b) air ->
  Forall (fun b => hear b <> Panic) air -> (forall s, In s past -> chosen wanted s = true -> newer last (key_replay_counter s) = false) ->
  run last (air ++ rest) = run last rest.
Proof.
  intros W OS NF NP OLD. induction air as [|b air IH]; [reflexivity|].
  inversion W as [|? ? Wb W']; subst. inversion NF as [|? ? Nb NF']; subst. inversion NP as [|? ? Pb NP']; subst. specialize (IH W' NF' NP').
  cbn [receiver app]. destruct (deserialize_eapol _ _ _ _ b _ _ _) as [k|er|] eqn:D; [|exact IH|now destruct Pb].
  destruct (chosen wanted k) eqn:CH; cbn [andb]; [|exact IH].
  assert (B8 : N.testbit (key_information k) 8 = true) by (unfold chosen in CH; now apply andb_prop in CH).
  destruct (heard _ _ _ _ _ _ _ _ Wb KM OS D B8 Nb) as (s & J & G). destruct (gives_fields _ _ G) as [_ GC].
  rewrite GC, (OLD s J); [exact IH|]. now rewrite <- (gives_chosen _ _ G).
Qed.
Lemma run_round past s air rest last : Forall wf_bytes air -> Forall ok_sent (past ++ [s]) -> Forall (fun b => ~ is_forged hmac kck with_fcs (past ++ [s]) b) air ->
  Forall (fun b => hear b <> Panic) air -> (forall s', In s' past -> chosen wanted s' = true -> newer last (key_replay_counter s') = false /\ (key_replay_counter s' < key_replay_counter s)%N) ->
  chosen wanted s = true -> newer last (key_replay_counter s) = true -> (exists b k, In b air /\ hear b = Ok k /\ chosen wanted k = true /\ key_replay_counter k = key_replay_counter s) ->
  exists k, gives s k /\ run last (air ++ rest) = k :: run (Some (key_replay_counter s)) rest.
Proof.
  intros W OS NF NP OLD CS NS G. induction air as [|b air IH]; [destruct G as (? & ? & [] & _)|].
  inversion W as [|? ? Wb W']; subst. inversion NF as [|? ? Nb NF']; subst. inversion NP as [|? ? Pb NP']; subst. specialize (IH W' NF' NP').
  assert (Q : (exists k, hear b = Ok k /\ chosen wanted k && newer last (key_replay_counter k) = true) \/
              (run last ((b :: air) ++ rest) = run last (air ++ rest) /\ exists b k, In b air /\ hear b = Ok k /\ chosen wanted k = true /\ key_replay_counter k = key_replay_counter s)).
  { destruct G as (g & kg & [->|IG] & Dg & Cg & Rg).
    - left. exists kg. split; [exact Dg|]. now rewrite Cg, Rg, NS.
    - cbn [receiver app]. destruct (deserialize_eapol _ _ _ _ b _ _ _) as [k|er|] eqn:D; [|right; split; [reflexivity|eauto 10]|now destruct Pb].
      destruct (chosen wanted k && newer last (key_replay_counter k)) eqn:B; [left; eauto|right; split; [reflexivity|eauto 10]]. }
  destruct Q as [(k & D & B)|[E G']]; [|rewrite E; now apply IH].
  cbn [receiver app]. cbv beta in D. rewrite D, B. apply andb_prop in B as [CH NW].
  assert (B8 : N.testbit (key_information k) 8 = true) by (unfold chosen in CH; now apply andb_prop in CH).
  destruct (heard _ _ _ _ _ _ _ _ Wb KM OS D B8 Nb) as (s' & J & Gv). destruct (gives_fields _ _ Gv) as [_ GC].
  assert (s' = s) as ->.
  { apply in_app_or in J as [J|[J|[]]]; [|now symmetry]. destruct (OLD s' J) as [X _]; [now rewrite <- (gives_chosen _ _ Gv)|]. rewrite GC in NW. congruence. }
  exists k. split; [exact Gv|]. f_equal. rewrite GC. apply run_quiet with (past := past ++ [s]); auto.
  intros s' J' C'. cbn [newer]. apply N.ltb_ge. apply in_app_or in J' as [J'|[->|[]]]; [|lia]. destruct (OLD s' J' C') as [_ X]. lia.
Qed.

Lemma gets_hear s air : ok_sent s -> chosen wanted s = true -> gets_through strict_end hmac unwrap kck kek temp with_fcs s air ->
  exists b k, In b air /\ hear b = Ok k /\ chosen wanted k = true /\ key_replay_counter k = key_replay_counter s.
Proof.
  intros [OK LS] CS (h & oui & fcs & k & H & LO & WO & LF & IN & ST & AR).
  assert (LM : length (frame_mic hmac kck s) = 16) by (unfold frame_mic; rewrite firstn_length, (hmac_length _ HM); reflexivity).
  assert (OA : ok_key_frame (on_air hmac kck s)).
  { destruct OK as (A1 & A2 & A3 & A4 & A5 & A6 & A7 & A8 & A9 & A10). unfold ok_key_frame, on_air. cbn [with_mic key_information key_length key_replay_counter key_nonce key_iv key_rsc key_mic key_data].
    rewrite LM. rewrite LS in A10. repeat (split; [assumption|]). split; [|now split].
    unfold frame_mic. apply wf_firstn. apply (hmac_wf _ HM). }
  exists (enc_eapol h oui 0x888e (on_air hmac kck s) ++ fcs), k. split; [exact IN|]. split.
  - cbv beta. rewrite (arrives hmac wrap unwrap HM KW); auto. unfold on_air. cbn [with_mic key_mic]. now rewrite LM.
  - assert (E : key_information k = key_information s /\ key_replay_counter k = key_replay_counter s).
    { revert AR. unfold arrival, on_air. cbn [with_mic key_information key_mic key_data key_replay_counter]. cbv zeta.
      assert (B8 : N.testbit (key_information s) 8 = true) by (unfold chosen in CS; now apply andb_prop in CS). rewrite B8.
      destruct (20 <? _); [discriminate|]. destruct (list_eq_dec _ _ _); [|discriminate].
      destruct (N.testbit (key_information s) 12).
      - destruct kek; [|discriminate]. destruct (_ <? 8); [discriminate|]. destruct (_ <? _); [discriminate|].
        destruct (unwrap _ _); [|discriminate]. intros Q. injection Q as <-. now split.
      - intros Q. injection Q as <-. now split. }
    destruct E as [E1 E2]. split; [|exact E2]. unfold chosen. rewrite E1. exact CS.
Qed.

Lemma increasing_app (a b : list (KeyFrame bytes)) : increasing (a ++ b) -> increasing a /\ increasing b /\ Forall (fun x => Forall (fun y => (key_replay_counter x < key_replay_counter y)%N) b) a.
Proof.
  induction a as [|x a IH]; cbn [app increasing]; intros H; [now split; [|split; [|constructor]]|].
  destruct H as [H1 H2]. apply Forall_app in H1 as [H0 H1]. destruct (IH H2) as (I1 & I2 & I3). split; [now split|]. split; [exact I2|]. now constructor.
Qed.

Lemma all_from past (rounds : History) last :
  Forall wf_bytes (concat (map snd rounds)) -> Forall ok_sent (past ++ map fst rounds) -> increasing (filter (chosen wanted) (past ++ map fst rounds)) ->
  nothing_forged hmac kck with_fcs past rounds -> Forall (fun b => hear b <> Panic) (concat (map snd rounds)) ->
  Forall (fun r => chosen wanted (fst r) = true -> gets_through strict_end hmac unwrap kck kek temp with_fcs (fst r) (snd r)) rounds ->
  (forall s, In s past -> chosen wanted s = true -> newer last (key_replay_counter s) = false) ->
  (last = None \/ exists s, In s past /\ chosen wanted s = true /\ last = Some (key_replay_counter s)) ->
  Forall2 gives (filter (chosen wanted) (map fst rounds)) (run last (concat (map snd rounds))).
Proof.
  revert past last. induction rounds as [|[s air] rounds IH]; intros past last W OS INC NF NP GT OLD LAST; [constructor|].
  cbn [map concat fst snd nothing_forged] in *. apply Forall_app in W as [W W']. apply Forall_app in NP as [NP NP'].
  inversion GT as [|? ? G GT']; subst. destruct NF as [NF NF']. cbn [fst snd] in G.
  replace (past ++ s :: map fst rounds) with ((past ++ [s]) ++ map fst rounds) in * by now rewrite <- app_assoc.
  assert (OS' : Forall ok_sent (past ++ [s])) by (apply Forall_app in OS; tauto).
  assert (OKs : ok_sent s) by (apply Forall_app in OS' as [_ Q]; now inversion Q).
  cbn [filter]. destruct (chosen wanted s) eqn:CS.
  - assert (LT : forall s', In s' past -> chosen wanted s' = true -> (key_replay_counter s' < key_replay_counter s)%N).
    { intros s' J C. rewrite filter_app in INC. apply increasing_app in INC as (INC & _ & _). rewrite filter_app in INC.
      apply increasing_app in INC as (_ & _ & INC). rewrite Forall_forall in INC. assert (J' : In s' (filter (chosen wanted) past)) by (apply filter_In; now split).
      specialize (INC _ J'). cbn [filter] in INC. rewrite CS in INC. now inversion INC. }
    assert (NS : newer last (key_replay_counter s) = true).
    { destruct LAST as [->|(s0 & J & C & ->)]; [reflexivity|]. cbn [newer]. apply N.ltb_lt. now apply LT. }
    destruct (run_round past s air (concat (map snd rounds)) last W OS' NF NP) as (k & GV & E); auto.
    { now apply gets_hear; [| |apply G]. }
    rewrite E. constructor; [exact GV|]. apply IH with (past := past ++ [s]); auto.
    + intros s' J C. cbn [newer]. apply N.ltb_ge. apply in_app_or in J as [J|[->|[]]]; [|lia]. specialize (LT s' J C). lia.
    + right. exists s. split; [apply in_or_app; right; now left|]. now split.
  - rewrite (run_quiet (past ++ [s]) air); auto.
    + apply IH with (past := past ++ [s]); auto.
      * intros s' J C. apply in_app_or in J as [J|[->|[]]]; [now apply OLD|congruence].
      * destruct LAST as [->|(s0 & J & C & ->)]; [now left|right]. exists s0. split; [apply in_or_app; now left|]. now split.
    + intros s' J C. apply in_app_or in J as [J|[->|[]]]; [now apply OLD|congruence].
Qed.
Theorem all_arrive (rounds : History) :
  Forall wf_bytes (concat (map snd rounds)) -> Forall ok_sent (map fst rounds) -> increasing (filter (chosen wanted) (map fst rounds)) ->
  nothing_forged hmac kck with_fcs [] rounds -> Forall (fun b => hear b <> Panic) (concat (map snd rounds)) ->
  Forall (fun r => chosen wanted (fst r) = true -> gets_through strict_end hmac unwrap kck kek temp with_fcs (fst r) (snd r)) rounds ->
  Forall2 gives (filter (chosen wanted) (map fst rounds)) (run None (concat (map snd rounds))).
Proof. intros. apply all_from with (past := []); auto. intros s []. Qed.
End R.
End F.
