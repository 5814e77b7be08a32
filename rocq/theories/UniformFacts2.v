(** The exact outcome of writing payloads with a MIC. *)
From Verif Require Import Base SpecBase BaseFacts Elements SpecElements ElementsFacts Mgmt SpecMgmt Crc Common CryptoHeader Amsdu Data SpecData SpecUniform UniformFacts.

Local Ltac uni := repeat first
  [ apply Uniform_bytes | apply Uniform_ne | apply Uniform_error
  | (apply Uniform_wseq; repeat (apply Forall_app; split); repeat apply Forall_cons; try apply Forall_nil)
  | apply Uniform_pwrite | assumption ].
Section Facts.
Context {cfg : Cfg}.
Definition micless (h : CryptoHeader) (c : Container) : Container := c_crypto (mkCW h c Mic_NotPresent).
Lemma crypto_outcome h c mic buf : Uniform (c_write c) ->
  c_write (c_crypto (mkCW h c mic)) buf
  = match c_write (micless h c) buf with
    | Ok (b, n) => if n + mic_length mic <=? length buf then Ok (firstn n b ++ repeat 0%N (mic_length mic) ++ skipn (n + mic_length mic) buf, n + mic_length mic) else Panic
    | r => r
    end.
Proof.
  intros U. assert (U1 : Uniform (c_write (micless h c))) by now apply crypto_uniform.
  destruct (c_write (micless h c) buf) as [[b n]|e|] eqn:E; [| |now apply uniform_no_panic in E].
  - destruct (uniform_contained _ _ _ _ U1 E) as (L & L' & T).
    unfold micless in E. cbn [c_write c_crypto] in *. unfold wr_crypto_wrapped in *. cbn [cw_header cw_payload cw_mic mic_length] in *.
    destruct (gwrite (wr_crypto_header h) buf 0) as [[b1 o1]|e|]; cbn [rbind] in *; try discriminate E.
    destruct (gwrite (c_write c) b1 o1) as [[b2 o2]|e|]; cbn [rbind] in *; try discriminate E.
    unfold slice_from in *. destruct (Nat.leb_spec o2 (length b2)) as [Lo|Lo]; cbn [rbind] in *; [|discriminate E].
    unfold slice_to in *. cbn [Nat.leb] in E. cbn [rbind repeat app skipn] in E. rewrite firstn_skipn, Nat.add_0_r in E. injection E as -> ->.
    rewrite skipn_length, L'. destruct (Nat.leb_spec (mic_length mic) (length buf - n)); destruct (Nat.leb_spec (n + mic_length mic) (length buf)); try lia; cbn [rbind]; [|reflexivity].
    now rewrite T, skipn_skipn_add.
  - unfold micless in E. cbn [c_write c_crypto] in *. unfold wr_crypto_wrapped in *. cbn [cw_header cw_payload cw_mic mic_length] in *.
    destruct (gwrite (wr_crypto_header h) buf 0) as [[b1 o1]|e'|]; cbn [rbind] in *; try discriminate E; [|exact E].
    destruct (gwrite (c_write c) b1 o1) as [[b2 o2]|e'|]; cbn [rbind] in *; try discriminate E; [|exact E].
    unfold slice_from in *. destruct (Nat.leb_spec o2 (length b2)) as [Lo|Lo]; cbn [rbind] in *; [|discriminate E].
    unfold slice_to in E. cbn [Nat.leb rbind] in E. discriminate E.
Qed.
Lemma crypto_frame_outcome d h c mic buf : Uniform (c_write c) ->
  wr_data (d, Some (c_crypto (mkCW h c mic))) false buf
  = match wr_data (d, Some (micless h c)) false buf with
    | Ok (b, n) => if n + mic_length mic <=? length buf then Ok (firstn n b ++ repeat 0%N (mic_length mic) ++ skipn (n + mic_length mic) buf, n + mic_length mic) else Panic
    | r => r
    end.
Proof.
  intros U. unfold wr_data. cbn [fst snd]. destruct (data_fcf d) as [fcf|e|]; cbn [rbind]; try reflexivity.
  set (w := wseq [wr_le 2 fcf; wr_data_header d]). assert (UW : Uniform w) by (unfold w, wr_data_header, opt_bytes; destruct (dh_a4 d), (dh_qos d), (dh_ht d); uni).
  destruct (w buf) as [[b1 o1]|e|] eqn:E1; cbn [rbind]; try reflexivity.
  destruct (uniform_contained _ _ _ _ UW E1) as (L1 & L1' & T1).
  unfold gwrite. destruct (end_bad o1 (length b1)); cbn [rbind]; [reflexivity|].
  rewrite (crypto_outcome h c mic (skipn o1 b1) U). assert (U1 : Uniform (c_write (micless h c))) by now apply crypto_uniform.
  destruct (c_write (micless h c) (skipn o1 b1)) as [[b n]|e|] eqn:E; cbn [rbind]; [|reflexivity|now apply uniform_no_panic in E].
  destruct (uniform_contained _ _ _ _ U1 E) as (L & L' & T). rewrite skipn_length in L, L' |- *.
  destruct (Nat.leb_spec (n + mic_length mic) (length b1 - o1)); destruct (Nat.leb_spec (o1 + n + mic_length mic) (length buf)); try lia; cbn [rbind]; [|reflexivity].
  rewrite firstn_app, firstn_firstn, firstn_length. replace (Nat.min (o1 + n) o1) with o1 by lia.
  replace (o1 + n - Nat.min o1 (length b1)) with n by lia. rewrite <- app_assoc. 
  rewrite T1, skipn_skipn_add. rewrite !Nat.add_assoc. reflexivity.
Qed.
Lemma crypto_frame_panics d h c mic fcs buf : Uniform (c_write c) ->
  wr_data (d, Some (c_crypto (mkCW h c mic))) fcs buf = Panic <->
  wr_data (d, Some (micless h c)) false buf = Panic \/
  exists b n, wr_data (d, Some (micless h c)) false buf = Ok (b, n) /\ length buf < n + mic_length mic.
Proof.
  intros U. assert (R : wr_data (d, Some (c_crypto (mkCW h c mic))) fcs buf
    = '(b, n) <- wr_data (d, Some (c_crypto (mkCW h c mic))) false buf ;; if fcs then attach_fcs b n else Ok (b, n)).
  { unfold wr_data. cbn [fst snd]. destruct (data_fcf d) as [fcf|e|]; cbn [rbind]; try reflexivity.
    destruct (wseq _ buf) as [[b1 o1]|e|]; cbn [rbind]; try reflexivity. now destruct (gwrite _ _ _) as [[b2 o2]|e|]. }
  rewrite R, (crypto_frame_outcome d h c mic buf U).
  destruct (wr_data (d, Some (micless h c)) false buf) as [[b n]|e|] eqn:E; cbn [rbind].
  - destruct (Nat.leb_spec (n + mic_length mic) (length buf)) as [L|L]; cbn [rbind].
    + split; [|intros [X|(b' & n' & X & Y)]; [discriminate X|injection X as <- <-; lia]].
      destruct fcs; [|discriminate]. unfold attach_fcs. rewrite slice_to_ok.
      2:{ assert (LB : length b = length buf).
          { unfold wr_data in E. cbn [fst snd] in E. destruct (data_fcf d) as [fcf|e|]; cbn [rbind] in E; try discriminate E.
            set (w := wseq [wr_le 2 fcf; wr_data_header d]) in *. assert (UW : Uniform w) by (unfold w, wr_data_header, opt_bytes; destruct (dh_a4 d), (dh_qos d), (dh_ht d); uni).
            destruct (w buf) as [[b1 o1]|e|] eqn:E1; cbn [rbind] in E; try discriminate E.
            destruct (uniform_contained _ _ _ _ UW E1) as (L1 & L1' & T1).
            unfold gwrite in E. destruct (end_bad o1 (length b1)); cbn [rbind] in E; [discriminate E|]. assert (U1 : Uniform (c_write (micless h c))) by now apply crypto_uniform.
            destruct (c_write (micless h c) (skipn o1 b1)) as [[b2 n2]|e|] eqn:E2; cbn [rbind] in E; try discriminate E.
            destruct (uniform_contained _ _ _ _ U1 E2) as (_ & L2 & _). injection E as <- <-. rewrite app_length, firstn_length, L2, skipn_length. lia. }
          rewrite !app_length, firstn_length, repeat_length, skipn_length. lia. }
      cbn [rbind]. unfold gwrite. destruct (end_bad _ _); [discriminate|]. intros X. exfalso.
      match type of X with context [wr_le 4 ?v ?q] => pose proof (uniform_no_panic (wr_le 4 v) q ltac:(uni)) as Y; destruct (wr_le 4 v q) as [[]| |]; congruence end.
    + split; [intros _; right; eauto|reflexivity].
  - split; [discriminate|intros [X|(b & n & X & _)]; discriminate X].
  - split; [now left|reflexivity].
Qed.
End Facts.
