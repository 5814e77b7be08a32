(** Facts about power saving. *)
From Coq Require Import Sorted.
From Verif Require Import Base SpecBase BaseFacts Bits Layouts Enums Common Elements SpecElements SpecElementTypes ElementsFacts Tim SpecTim TimFacts TimFacts2
  Mgmt SpecMgmt MgmtFacts Generic SpecGeneric SpecDelivery DeliveryFacts SpecPowerSave.

(** ** The whole map *)
Definition map_bit (m : bytes) (k : nat) : bool := N.testbit (nth (k / 8) m 0%N) (N.of_nat (k mod 8)).
Lemma mark_length m a : a / 8 < length m -> length (mark m a) = length m.
Proof. intros L. unfold mark. rewrite app_length, firstn_length. cbn [length]. rewrite skipn_length. lia. Qed.
Lemma mark_bit m a k : a / 8 < length m -> map_bit (mark m a) k = map_bit m k || (k =? a).
Proof.
  intros L. unfold map_bit, mark.
  pose proof (Nat.div_mod_eq k 8) as Dk. pose proof (Nat.div_mod_eq a 8) as Da.
  pose proof (Nat.mod_upper_bound k 8 ltac:(lia)) as Mk. pose proof (Nat.mod_upper_bound a 8 ltac:(lia)) as Ma.
  destruct (Nat.lt_trichotomy (k / 8) (a / 8)) as [C|[C|C]].
  - rewrite app_nth1 by (rewrite firstn_length; lia). rewrite nth_firstn by lia.
    replace (k =? a) with false by (symmetry; apply Nat.eqb_neq; intros ->; lia). now rewrite orb_false_r.
  - rewrite C, app_nth2 by (rewrite firstn_length; lia). rewrite firstn_length. replace (_ - _) with 0 by lia. cbn [nth].
    rewrite N.lor_spec, N.pow2_bits_eqb. f_equal. apply eq_true_iff_eq. rewrite N.eqb_eq, Nat.eqb_eq. lia.
  - rewrite app_nth2 by (rewrite firstn_length; lia). rewrite firstn_length. replace (k / 8 - Nat.min (a / 8) (length m)) with (S (k / 8 - S (a / 8))) by lia.
    cbn [nth]. rewrite nth_skipn. replace (S (a / 8) + (k / 8 - S (a / 8))) with (k / 8) by lia.
    replace (k =? a) with false by (symmetry; apply Nat.eqb_neq; intros ->; lia). now rewrite orb_false_r.
Qed.
Lemma mark_wf m a : wf_bytes m -> wf_bytes (mark m a).
Proof.
  intros W. unfold mark. apply Forall_app. split; [now apply wf_firstn|]. constructor; [|now apply wf_skipn].
  assert (X : (nth (a / 8) m 0 < 256)%N).
  { destruct (Nat.lt_ge_cases (a / 8) (length m)) as [L|L].
    - unfold wf_bytes in W. rewrite Forall_forall in W. apply W, nth_In, L.
    - now rewrite nth_overflow. }
  pose proof (Nat.mod_upper_bound a 8 ltac:(lia)) as Ma. generalize dependent (nth (a / 8) m 0%N). intros x X.
  apply N.div_small_iff; [discriminate|]. change 256%N with (2 ^ 8)%N. rewrite <- N.shiftr_div_pow2, N.shiftr_lor, !N.shiftr_div_pow2.
  rewrite (N.div_small x) by exact X. rewrite N.div_small; [reflexivity|]. apply N.pow_lt_mono_r; lia.
Qed.
Lemma marks w m : Forall (fun a => a / 8 < length m) w -> wf_bytes m ->
  length (fold_left mark w m) = length m /\ wf_bytes (fold_left mark w m) /\ forall k, map_bit (fold_left mark w m) k = map_bit m k || waits w k.
Proof.
  revert m. induction w as [|a w IH]; intros m F W; cbn [fold_left waits existsb].
  - split; [reflexivity|]. split; [exact W|]. intros k. unfold waits. cbn. now rewrite orb_false_r.
  - inversion F as [|? ? La Fw]; subst. destruct (IH (mark m a)) as (L & W' & B).
    + rewrite mark_length by exact La. exact Fw.
    + now apply mark_wf.
    + split; [rewrite L; now apply mark_length|]. split; [exact W'|]. intros k. rewrite B, mark_bit by exact La. unfold waits. cbn [existsb]. now rewrite orb_assoc.
Qed.
Lemma waits_spec w a : waits w a = true <-> In a w.
Proof.
  unfold waits. rewrite existsb_exists. split.
  - intros (x & J & E). apply Nat.eqb_eq in E. now subst.
  - intros J. exists a. split; [exact J|apply Nat.eqb_refl].
Qed.

Section F.
Context {cfg : Cfg}.
(** ** One beacon *)
Lemma chain_shape s t : chain_items (beacon_chain s t) = map RawItem (bs_front s) ++ Typed (elem_of TIMElement t) :: map RawItem (bs_back s).
Proof. unfold beacon_chain. destruct (bs_front s); rewrite chain_of_items; reflexivity. Qed.
Lemma raw_items l : Forall other_element l -> Forall2 item_element (map RawItem l) l /\ Forall wf_item (map RawItem l) /\ Forall fits l.
Proof.
  intros F. induction F as [|e l (T & _ & _ & L) F (I1 & I2 & I3)]; cbn [map]; [auto|].
  split; [constructor; [reflexivity|exact I1]|]. split; [constructor; [exact T|exact I2]|constructor; [exact L|exact I3]].
Qed.
Lemma enc_elements_app a b : enc_elements (a ++ b) = enc_elements a ++ enc_elements b.
Proof. unfold enc_elements. now rewrite map_app, concat_app. Qed.
Lemma others_wf l : Forall other_element l -> wf_bytes (enc_elements l).
Proof.
  intros F. unfold enc_elements. induction F as [|e l (T & _ & W & L) F IH]; cbn [map concat]; [constructor|]. apply Forall_app. split; [|exact IH].
  unfold enc_element. constructor; [exact T|]. constructor; [lia|exact W].
Qed.
Definition shows (tb : TIMBitmap) (b : Bitmap) (bs : bytes) : Prop :=
  tb_bitmap tb = Some b /\ bm_bytes b = Ok bs /\ (match b with BStatic _ _ => False | _ => True end) /\
  (tb_control tb < 256)%N /\ wf_bytes bs /\ length bs <= 252.
Lemma tim_once count period tb b bs : shows tb b bs -> (count <= period)%N -> (period < 256)%N ->
  let t := mkTIM count period (Some tb) in
  Writes (wr_tim t) (enc_tim count period (Some (tb_control tb, bs))) /\ et_measure TIMElement t = length (enc_tim count period (Some (tb_control tb, bs))) /\
  ReadsAll rd_tim (enc_tim count period (Some (tb_control tb, bs))) (mkTIM count period (Some (mkTB (tb_control tb) (Some (BSlice bs))))).
Proof.
  intros (B & D & NS & C & W & L) CP P t.
  assert (S : tim_shows t count period (Some (tb_control tb, bs))).
  { unfold t. split; [reflexivity|]. split; [reflexivity|]. cbn. split; [reflexivity|eauto]. }
  destruct (tim_round_trip _ _ _ _ S (conj C W) CP P) as (X & Y & _). split; [exact X|]. split; [|exact Y].
  apply (tim_announces _ _ _ _ S). unfold not_static, t. cbn. destruct tb as [c o]; cbn in *. subst o. destruct b; auto.
Qed.
Theorem one_beacon l a s tb b bs set : listens l a -> ok_setup s -> shows tb b bs -> reports (mkTB (tb_control tb) (Some (BSlice bs))) set ->
  exists frame said, send_beacon s tb = Ok frame /\
    match_frames frame (if bs_fcs s then Some true else None) (map snd l) = Ok (Some (tb_traffic tb, said)) /\ (said = true <-> set a).
Proof.
  intros (TA & I) (Hh & Ht & Hi & Hc & Ff & Fb & EV & CP & P & Room) SH (ids & It & _ & Ids).
  set (t := mkTIM (bs_count s) (bs_period s) (Some tb)).
  set (t' := mkTIM (bs_count s) (bs_period s) (Some (mkTB (tb_control tb) (Some (BSlice bs))))).
  set (body := enc_tim (bs_count s) (bs_period s) (Some (tb_control tb, bs))).
  destruct (tim_once _ _ _ _ _ SH CP P) as (Wt & Mt & Rt). fold t t' body in Wt, Mt, Rt.
  destruct SH as (B & D & NS & C & W & L).
  assert (Lb : length body = 3 + length bs) by (unfold body, enc_tim; cbn; lia).
  assert (Wb : wf_bytes body).
  { unfold body, enc_tim. cbn [app]. constructor; [lia|]. constructor; [exact P|]. constructor; assumption. }
  set (raws := bs_front s ++ element (Id 5) body :: bs_back s).
  destruct (raw_items _ Ff) as (F1 & F2 & F3). destruct (raw_items _ Fb) as (B1 & B2 & B3).
  assert (CE : chain_of_elements (beacon_chain s t) raws).
  { unfold chain_of_elements. rewrite chain_shape. unfold raws. split; [|split; [|split]].
    - apply Forall2_app; [exact F1|]. constructor; [|exact B1]. exists (Id 5), body. split; [|reflexivity].
      split; [reflexivity|]. split; [exact Mt|exact Wt].
    - apply Forall_app. split; [exact F2|]. constructor; [|exact B2]. cbn. lia.
    - apply Forall_app. split; [exact F3|]. constructor; [|exact B3]. unfold fits. cbn. lia.
    - destruct EV as [S|[S|S]]; [now left|congruence|]. right. right. rewrite rev_app_distr. cbn [rev].
      destruct (rev (bs_back s)) as [|x y]; [|exact S]. cbn. discriminate. }
  assert (Wr : wf_bytes (enc_elements raws)).
  { unfold raws. rewrite enc_elements_app. apply Forall_app. split; [now apply others_wf|]. unfold enc_elements. cbn [map concat].
    apply Forall_app. split; [|now apply others_wf]. change (wf_bytes (5%N :: N.of_nat (length body) :: body)). constructor; [reflexivity|]. constructor; [rewrite Lb; clear -L; lia|exact Wb]. }
  assert (RT : RoundTrip TIMElement (fun w => w = t) (fun _ => t')).
  { intros w ->. exists body. split; [exact Wt|]. split; [exact Mt|]. split; [exact Wb|exact Rt]. }
  assert (HV : holds_values TIMElement (fun w => w = t) (chain_items (beacon_chain s t)) (map (fun _ => None) (bs_front s) ++ Some t :: map (fun _ => None) (bs_back s))).
  { rewrite chain_shape. unfold holds_values.
    assert (O : forall l, Forall other_element l -> Forall2 (fun i o => match o with
      | Some w => i = Typed (elem_of TIMElement w) /\ w = t /\ (strict_end = false \/ et_measure TIMElement w <> 0)
      | None => forall raw, item_element i raw -> ~ is_element (et_id TIMElement) raw end) (map RawItem l) (map (fun _ => None) l)).
    { intros l0 F. induction F as [|e l0 (_ & N5 & _) F IH]; cbn [map]; constructor; [|exact IH].
      intros raw R (bd & ->). cbn in R. subst e. cbn in N5. congruence. }
    apply Forall2_app; [now apply O|]. constructor; [|now apply O]. split; [reflexivity|]. split; [reflexivity|]. right. rewrite Mt, Lb. discriminate. }
  assert (ok : ok_beacon (mkBeacon (bs_time s) (bs_interval s) (bs_capabilities s) (c_chain (beacon_chain s t)))) by (split; [exact Ht|split; assumption]).
  assert (Len : length (enc_elements raws) = length (enc_elements (bs_front s)) + length (enc_elements (bs_back s)) + 2 + length body).
  { unfold raws. rewrite enc_elements_app. unfold enc_elements. cbn [map concat]. change (enc_element (element (Id 5) body)) with (5%N :: N.of_nat (length body) :: body). rewrite !app_length. cbn [length]. fold body. lia. }
  assert (HL : length (enc_mgmt_header (bs_header s)) <= 26).
  { destruct Hh as (_ & _ & (A1 & _) & (A2 & _) & (A3 & _) & _ & HT). unfold enc_mgmt_header. rewrite !app_length, !le_bytes_length, A1, A2, A3.
    destruct (mh_ht (bs_header s)) as [ht|]; [destruct HT as (_ & -> & _)|cbn]; lia. }
  destruct (beacon_elements_delivered TIMElement (fun w => w = t) (fun _ => t') _ l (listen a) (bs_header s) _ (beacon_chain s t) raws _ (bs_fcs s) (bs_buffer s)
    Logic.I rd_tim_NP RT CE Wr HV TA I Hh ok eq_refl) as (buf' & n & E & M & _ & G).
  { unfold enc_mgmt, fixed_beacon. cbn [bb_timestamp bb_interval bb_capabilities].
    assert (forall x, length (enc_frame (bs_fcs s) x) <= length x + 4) as LF by (intros x; unfold enc_frame; destruct (bs_fcs s); rewrite ?app_length, ?le_bytes_length; lia).
    etransitivity; [apply Nat.add_le_mono_r, LF|]. rewrite !app_length, !le_bytes_length, Len. unfold enc_fcf, slack. cbn [length]. destruct strict_end; lia. }
  exists (firstn n buf'), (waits (numbers ids) a). split; [unfold send_beacon; fold t; now rewrite E|]. split; [|rewrite waits_spec; apply Ids].
  rewrite M. f_equal. unfold listen. cbn [snd]. rewrite G.
  assert (S1 : forall f g : list RawElement, somes (map (fun _ => None) f ++ Some t :: map (fun _ => None) g) = [t]).
  { intros f g. induction f as [|x f IH]; cbn [map app somes]; [|exact IH]. f_equal. induction g as [|y g IH]; [reflexivity|exact IH]. }
  rewrite S1. cbn [hd_error option_map]. unfold t' at 1. cbn [te_bitmap]. rewrite It. reflexivity.
Qed.
End F.
