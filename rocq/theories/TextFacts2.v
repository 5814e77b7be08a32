(** Proofs about the text output of iterators. *)
From Verif Require Import Base BaseFacts Bits Layouts Common Elements Utf8 ElementTypes SpecElementTypes ElementTypesFacts2 SpecForward ForwardFacts Text TextIter SpecText TextFacts.

Lemma shows_fmt {A} (text : A -> bytes) l : shows_items text (fmt_list (map text l)) l.
Proof.
  unfold shows_items, fmt_list. destruct l as [|x l]; [reflexivity|]. cbn [map]. now rewrite join_concat, map_map.
Qed.
Lemma iter_text {A} (r : reader A) (text : A -> bytes) (bs : bytes) all : TakesBytes r -> iter_all r bs = Ok all ->
  exists t, shows_items text t all /\ iter_debug r text (Some bs) = Ok t /\ iter_defmt r text (Some bs) = Ok t.
Proof.
  intros P E. exists (fmt_list (map text all)). split; [apply shows_fmt|]. split.
  - unfold iter_debug. change (iter_collect (S (iter_measure (Some bs))) r (Some bs)) with (iter_all r bs). now rewrite E.
  - apply (collect_coming A r) in E. rewrite (shows_fmt text all). unfold iter_defmt. inversion E as [|bs' e R|bs' x n xs R L C]; subst.
    + cbn [iter_next]. rewrite R. reflexivity.
    + cbn [iter_next]. rewrite R, slice_from_ok by exact L. cbn [rbind].
      rewrite (coming_collect A r P _ _ C) by (cbn; lia). reflexivity.
Qed.
Lemma iter_text_none {A} (r : reader A) (text : A -> bytes) : iter_debug r text None = Ok (str "[]") /\ iter_defmt r text None = Ok (str "[]").
Proof. split; reflexivity. Qed.
Lemma iter_text_ex : TakesBytes rd_u8 /\ iter_all rd_u8 [1; 6; 11]%N = Ok [1; 6; 11]%N /\
  iter_debug rd_u8 fmt_dec (Some [1; 6; 11]%N) = Ok (str "[1, 6, 11]") /\ iter_defmt rd_u8 fmt_dec (Some [1; 6; 11]%N) = Ok (str "[1, 6, 11]").
Proof.
  split; [|repeat split; vm_compute; reflexivity].
  intros [|b bs] x n; cbn; [discriminate|]. intros [= <- <-]. lia.
Qed.

Lemma ssid_text {cfg : Cfg} bs x n : et_read SSIDElement bs = Ok (x, n) \/ et_read MeshIDElement bs = Ok (x, n) -> ssid_display x = bs.
Proof.
  cbn [et_read SSIDElement MeshIDElement]. unfold rd_ssid, ssid_display.
  destruct (32 <? length bs) eqn:L; [intros [|]; discriminate|].
  intros [E|E]; apply rd_str_spec in E as (_ & -> & _); apply firstn_all.
Qed.
(** ** OWE transition mode *)
Lemma owe_text mac quoted x : exists band channel, numeral 10 band match owe_band x with Some b => fst b | None => 0 end /\
  numeral 10 channel match owe_band x with Some b => snd b | None => 0 end /\
  owe_display mac quoted x = str "OWETransitionModeElement { bssid: " ++ mac (owe_bssid x) ++ str ", ssid: " ++ quoted (owe_ssid x) ++
    match owe_band x with
    | Some _ => str ", band_and_channel_info: BandAndChannelInfo { band: " ++ band ++ str ", channel: " ++ channel ++ str " } }"
    | None => str " }"
    end.
Proof.
  exists (fmt_dec match owe_band x with Some b => fst b | None => 0 end), (fmt_dec match owe_band x with Some b => snd b | None => 0 end).
  split; [apply fmt_dec_numeral|]. split; [apply fmt_dec_numeral|].
  unfold owe_display, band_debug, fmt_struct. destruct (owe_band x) as [[b c]|]; cbn [app map join fst snd]; rewrite <- !app_assoc; reflexivity.
Qed.
Lemma owe_inj P Q mac quoted x y : self_delimiting P mac -> self_delimiting Q quoted -> P (owe_bssid x) -> P (owe_bssid y) ->
  Q (owe_ssid x) -> Q (owe_ssid y) -> owe_display mac quoted x = owe_display mac quoted y -> x = y.
Proof.
  intros M D Px Py Qx Qy E.
  destruct (owe_text mac quoted x) as (b & c & B & C & X), (owe_text mac quoted y) as (b' & c' & B' & C' & Y).
  rewrite X, Y in E. clear X Y. destruct x as [x1 x2 x3], y as [y1 y2 y3]. cbn [owe_bssid owe_ssid owe_band] in *.
  apply app_inv_head in E. pose proof (M _ _ _ _ Px Py E) as <-. apply app_inv_head, app_inv_head in E.
  pose proof (D _ _ _ _ Qx Qy E) as <-. apply app_inv_head in E. f_equal.
  destruct x3 as [[n m]|], y3 as [[n' m']|]; [| discriminate | discriminate | reflexivity]. cbn [fst snd] in *.
  apply app_inv_head in E.
  apply (prefix_end is_digit) in E;
    [|exact (numeral_chars 10 _ _ B)|exact (numeral_chars 10 _ _ B')|intros d w [= <- _] H; now apply H|intros d w [= <- _] H; now apply H].
  destruct E as [-> E]. apply app_inv_head, app_inv_tail in E. subst c'.
  f_equal. f_equal; [exact (numeral_value 10 _ _ _ B B')|exact (numeral_value 10 _ _ _ C C')].
Qed.
(** instances of the parameters *)
Lemma digit_inj d e : (d < 16 -> e < 16 -> digit d = digit e -> d = e)%N.
Proof. intros D E H. apply (f_equal digit_value) in H. rewrite !digit_value_digit in H by assumption. now injection H. Qed.
Lemma pairs_delimited x : forall y u v, wf_bytes x -> wf_bytes y -> length x = length y ->
  concat (map (fun b => [58; digit (b / 16); digit (b mod 16)])%N x) ++ u = concat (map (fun b => [58; digit (b / 16); digit (b mod 16)])%N y) ++ v -> x = y.
Proof.
  induction x as [|a x IH]; intros [|b y] u v X Y L E; try discriminate; [reflexivity|].
  inversion X as [|? ? A X']; inversion Y as [|? ? B Y']; subst. cbn [map concat app] in E. injection E as E1 E2 E.
  apply digit_inj in E1; [|apply N.div_lt_upper_bound; lia|apply N.div_lt_upper_bound; lia].
  apply digit_inj in E2; [|apply N.mod_lt; lia|apply N.mod_lt; lia].
  rewrite (N.div_mod a 16), (N.div_mod b 16), E1, E2 by discriminate. f_equal. eapply IH; eauto.
Qed.
Lemma colon_hex_delimited : self_delimiting (fun x => wf_bytes x /\ length x = 6) colon_hex.
Proof.
  intros x y u v [X Lx] [Y Ly] E. apply (pairs_delimited x y u v X Y); [lia|].
  destruct x as [|a x]; [discriminate|]. destruct y as [|b y]; [discriminate|]. unfold colon_hex in E. cbn [map concat app tl] in E |- *. now f_equal.
Qed.
Lemma quote_delimited : self_delimiting (fun _ => True) quote_escaped.
Proof.
  intros x y u v _ _ E. unfold quote_escaped in E. cbn [app] in E. injection E as E. rewrite <- !app_assoc in E. cbn [app] in E.
  revert y E. induction x as [|a x IH]; intros [|b y] E; cbn [map concat app] in E.
  - reflexivity.
  - destruct (b =? 34)%N eqn:B; cbn [orb app] in E; [discriminate|]. destruct (b =? 92)%N; cbn [app] in E; [discriminate|].
    injection E as E _. now rewrite <- E in B.
  - destruct (a =? 34)%N eqn:B; cbn [orb app] in E; [discriminate|]. destruct (a =? 92)%N; cbn [app] in E; [discriminate|].
    injection E as E _. now rewrite E in B.
  - assert (a = b /\ concat (map (fun c => if (c =? 34)%N || (c =? 92)%N then [92; c]%N else [c]) x) ++ 34%N :: u =
      concat (map (fun c => if (c =? 34)%N || (c =? 92)%N then [92; c]%N else [c]) y) ++ 34%N :: v) as [-> E'].
    { destruct ((a =? 34)%N || (a =? 92)%N) eqn:A, ((b =? 34)%N || (b =? 92)%N) eqn:B; cbn [app] in E.
      - injection E as -> E. now split.
      - injection E as <- E. discriminate.
      - injection E as -> E. discriminate.
      - injection E as -> E. now split. }
    f_equal. now apply IH.
Qed.
