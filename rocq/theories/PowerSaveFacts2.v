(** Facts about power saving: every history, the whole map, [tim_bitmap!], [new_static]. *)
From Coq Require Import Sorted.
From Verif Require Import Base SpecBase BaseFacts Bits Layouts Enums Common Elements SpecElements SpecElementTypes ElementsFacts Tim SpecTim TimFacts TimFacts2
  Mgmt SpecMgmt MgmtFacts Generic SpecGeneric SpecDelivery DeliveryFacts SpecPowerSave PowerSaveFacts.

Lemma at_beacons_known history : forall w, Forall (fun a => a <= 2007) w -> known_stations history -> Forall (Forall (fun a => a <= 2007)) (at_beacons w history).
Proof.
  induction history as [|e history IH]; intros w F K; cbn [at_beacons]; [constructor|]. inversion K as [|? ? Ke K']; subst. destruct e as [a|a|].
  - apply IH; [constructor; assumption|exact K'].
  - apply IH; [|exact K']. rewrite Forall_forall in *. intros x J. apply filter_In in J as [J _]. now apply F.
  - constructor; [exact F|]. now apply IH.
Qed.
(** for whom something waits: the last thing that happened to their queue was a frame *)
Lemma group_control g : let ctl := lsetb TIMBitmapControl_layout "traffic_indicator" g 0 in
  (ctl < 256)%N /\ spec_n1 ctl = 0 /\ tbc_n1 ctl = 0%N /\ tbc_traffic ctl = g.
Proof. destruct g; vm_compute; auto. Qed.
Section F.
Context {cfg : Cfg}.
Lemma whole_shows w : Forall (fun a => a <= 2007) w -> exists tb b bs, whole_map w = Ok tb /\ shows tb b bs /\ tb_traffic tb = waits w 0 /\
  reports (mkTB (tb_control tb) (Some (BSlice bs))) (fun a => a <> 0 /\ In a w).
Proof.
  intros F. destruct (marks w (repeat 0%N 251)) as (L & W & B).
  { rewrite repeat_length. eapply Forall_impl; [|exact F]. cbn beta. intros a La. apply Nat.div_lt_upper_bound; lia. }
  { apply Forall_forall. intros x J. apply repeat_spec in J. subst. reflexivity. }
  rewrite repeat_length in L. set (m := fold_left mark w (repeat 0%N 251)) in *.
  unfold whole_map. fold m. destruct (group_control (waits w 0)) as (C & N0 & N0' & T). generalize dependent (lsetb TIMBitmapControl_layout "traffic_indicator" (waits w 0) 0).
  intros ctl C N0 N0' T.
  assert (Z : forall k, map_bit (repeat 0%N 251) k = false).
  { intros k. unfold map_bit. replace (nth (k / 8) (repeat 0%N 251) 0%N) with 0%N; [apply N.bits_0|]. symmetry.
    destruct (Nat.lt_ge_cases (k / 8) 251); [apply nth_repeat|apply nth_overflow; rewrite repeat_length; lia]. }
  exists (mkTB ctl (Some (BSlice m))), (BSlice m), m.
  split; [unfold tb_new_raw; cbn [bm_bytes rbind]; rewrite L, N0'; reflexivity|].
  split; [split; [reflexivity|]; split; [reflexivity|]; split; [exact Logic.I|]; split; [exact C|]; split; [exact W|lia]|].
  split; [exact T|].
  cbn [tb_control]. eapply reports_ext; [|apply (reports_exact ctl m C)].
  - intros a. cbn beta. unfold indicates, virtual_bit. rewrite N0, Nat.sub_0_r. change (0 <=? a / 8) with true. cbn [andb].
    specialize (B a). unfold map_bit in B at 1. rewrite B, Z. cbn [orb]. rewrite waits_spec. split.
    + intros ([X _] & J). split; [lia|exact J].
    + intros (X & J). rewrite Forall_forall in F. specialize (F a J). cbn beta in F. split; [lia|exact J].
  - rewrite N0. lia.
  - left. exact N0.
Qed.
Theorem whole_history l a setups history : listens l a -> 1 <= a -> (forall k, ok_setup (setups k)) -> known_stations history ->
  hears l setups whole_map 0 (at_beacons [] history) = map (fun w => Ok (Some (waits w 0, waits w a))) (at_beacons [] history).
Proof.
  intros Li A S K. pose proof (at_beacons_known history [] (Forall_nil _) K) as F. generalize 0 at 1. induction F as [|w beacons Fw F IH]; intros k; [reflexivity|].
  cbn [hears map]. f_equal; [|apply IH]. unfold hear. destruct (whole_shows w Fw) as (tb & b & bs & E & SH & T & R). rewrite E. cbn [rbind].
  destruct (one_beacon l a (setups k) tb b bs _ Li (S k) SH R) as (frame & said & Sb & M & Sa). rewrite Sb. cbn [rbind]. rewrite M, T. do 3 f_equal.
  apply eq_true_iff_eq. rewrite Sa, waits_spec. split; [intros [_ J]; exact J|intros J; split; [lia|exact J]].
Qed.
(** [tim_bitmap!] *)
Theorem list_beacon l a s aids low : listens l a -> ok_setup s -> Forall (fun a => a <= 2007) aids -> lowest aids low ->
  exists said, hear l s tim_bitmap_list aids = Ok (Some (waits aids 0, said)) /\ (said = true <-> In a aids /\ a <> 0 /\ a <> 16 * (low / 16)).
Proof.
  intros Li S F (I & Z & Lo).
  destruct (tim_bitmap_list_spec aids F (ex_intro _ low (conj I Z))) as (tb & b & bs & E & B & D & K & C & W & Len & G & Ind & N1 & a1 & I1 & Z1 & N1').
  assert (SH : shows tb b bs).
  { split; [exact B|]. split; [exact D|]. split; [now destruct b|]. split; [exact C|]. split; [exact W|]. lia. }
  assert (R : reports (mkTB (tb_control tb) (Some (BSlice bs))) (fun a => In a aids /\ a <> 0 /\ a <> 16 * (low / 16))).
  { eapply reports_ext; [|apply reports_slice; [assumption|lia]].
    intros x. cbn beta. rewrite Ind. specialize (Lo _ I1 Z1). specialize (N1 _ I Z).
    replace (16 * (low / 16)) with (8 * spec_n1 (tb_control tb)) by lia. intuition. }
  destruct (one_beacon l a s tb b bs _ Li S SH R) as (frame & said & Sb & M & Sa).
  exists said. split; [|exact Sa]. unfold hear. rewrite E. cbn [rbind]. rewrite Sb. cbn [rbind]. rewrite M. do 3 f_equal.
  apply eq_true_iff_eq. unfold tb_traffic. rewrite tbc_traffic_spec, G, waits_spec. reflexivity.
Qed.
End F.

(** ** The meaning of the queue *)
Fixpoint queue_after (w : list nat) (history : list Event) : list nat :=
  match history with
  | [] => w
  | Queued a :: rest => queue_after (a :: w) rest
  | Fetched a :: rest => queue_after (filter (fun b => negb (b =? a)) w) rest
  | BeaconTime :: rest => queue_after w rest
  end.
Lemma queue_app h1 h2 : forall w, queue_after w (h1 ++ h2) = queue_after (queue_after w h1) h2.
Proof. induction h1 as [|[a|a|] h1 IH]; intros w; cbn [app queue_after]; [reflexivity|apply IH..]. Qed.
Lemma queue_meaning a h : In a (queue_after [] h) <-> exists before after, h = before ++ Queued a :: after /\ ~ In (Fetched a) after.
Proof.
  induction h as [|e h IH] using rev_ind.
  - cbn. split; [intros []|]. intros (b & c & E & _). now destruct b.
  - rewrite queue_app. destruct e as [x|x|]; cbn [queue_after].
    + split.
      * intros [->|J]; [exists h, []; split; [reflexivity|intros []]|]. apply IH in J as (b & c & -> & N). exists b, (c ++ [Queued x]).
        split; [now rewrite <- app_assoc|]. rewrite in_app_iff. intros [J|[J|[]]]; [auto|discriminate].
      * intros (b & c & E & N). destruct c as [|y c] using rev_ind.
        { apply app_inj_tail in E as [_ E]. injection E as ->. now left. }
        clear IHc. right. apply IH. rewrite app_comm_cons, app_assoc in E. apply app_inj_tail in E as [-> _]. exists b, c. split; [reflexivity|].
        intros J. apply N, in_app_iff. now left.
    + rewrite filter_In, negb_true_iff, Nat.eqb_neq, IH. split.
      * intros ((b & c & -> & N) & D). exists b, (c ++ [Fetched x]). split; [now rewrite <- app_assoc|]. rewrite in_app_iff. intros [J|[J|[]]]; [auto|congruence].
      * intros (b & c & E & N). destruct c as [|y c] using rev_ind.
        { apply app_inj_tail in E as [_ E]. discriminate. }
        clear IHc. rewrite app_comm_cons, app_assoc in E. apply app_inj_tail in E as [-> <-]. split.
        -- exists b, c. split; [reflexivity|]. intros J. apply N, in_app_iff. now left.
        -- intros ->. apply N, in_app_iff. right. now left.
    + rewrite IH. split.
      * intros (b & c & -> & N). exists b, (c ++ [BeaconTime]). split; [now rewrite <- app_assoc|]. rewrite in_app_iff. intros [J|[J|[]]]; [auto|discriminate].
      * intros (b & c & E & N). destruct c as [|y c] using rev_ind.
        { apply app_inj_tail in E as [_ E]. discriminate. }
        clear IHc. rewrite app_comm_cons, app_assoc in E. apply app_inj_tail in E as [-> _]. exists b, c. split; [reflexivity|]. intros J. apply N, in_app_iff. now left.
Qed.
Lemma at_beacons_nth h1 h2 : forall w, nth_error (at_beacons w (h1 ++ BeaconTime :: h2)) (beacons_in h1) = Some (queue_after w h1).
Proof. induction h1 as [|[a|a|] h1 IH]; intros w; cbn [app at_beacons queue_after beacons_in nth_error]; [reflexivity|apply IH..]. Qed.
Theorem station_told {cfg : Cfg} l a setups h1 h2 : listens l a -> 1 <= a -> (forall k, ok_setup (setups k)) -> known_stations (h1 ++ BeaconTime :: h2) ->
  exists group said, nth_error (hears l setups whole_map 0 (at_beacons [] (h1 ++ BeaconTime :: h2))) (beacons_in h1) = Some (Ok (Some (group, said))) /\
    (group = true <-> pending 0 h1) /\ (said = true <-> pending a h1).
Proof.
  intros Li A S K. rewrite (whole_history _ _ _ _ Li A S K). rewrite nth_error_map, at_beacons_nth. cbn [option_map].
  eexists _, _. split; [reflexivity|]. rewrite !waits_spec. split; apply queue_meaning.
Qed.

(** ** Witnesses *)
Definition ex_setup : BeaconSetup :=
  mkBS (mkMH 0 0 (repeat 255%N 6) (repeat 2%N 6) (repeat 2%N 6) 0x1230 None) 5 100 1 [mkRaw 0 [84; 101; 115; 116]]%N [mkRaw 7 [68; 69; 32]%N; mkRaw 42 [0]%N] true (repeat 0%N 400) 0 1.
Definition ex_arms {cfg : Cfg} (a : nat) : list (nat * Arm (option (bool * bool))) := [(0, mkArm _ _ (mgmt_kind Beacon) (rd_mgmt Beacon) (listen a))].
Lemma ex_listens {cfg : Cfg} a : listens (ex_arms a) a.
Proof.
  split; [|now left]. split; [constructor; [intros []|constructor]|]. constructor; [|constructor]. eexists. reflexivity.
Qed.
Lemma ex_setup_ok {cfg : Cfg} : ok_setup ex_setup.
Proof.
  split.
  { split; [reflexivity|]. split; [reflexivity|]. do 3 (split; [split; [reflexivity|apply wf_bytesb_spec; reflexivity]|]). split; reflexivity. }
  do 3 (split; [reflexivity|]).
  assert (O : forall e, (re_type e <? 256)%N && negb (re_type e =? 5)%N && wf_bytesb (re_slice e) && (length (re_slice e) <=? 255) = true -> other_element e).
  { intros e. rewrite !andb_true_iff, negb_true_iff, N.eqb_neq, N.ltb_lt, Nat.leb_le. intros (((A & B) & C) & D). split; [exact A|]. split; [exact B|]. split; [now apply wf_bytesb_spec|exact D]. }
  split; [constructor; [now apply O|constructor]|]. split; [constructor; [now apply O|constructor; [now apply O|constructor]]|].
  split; [right; right; discriminate|]. split; [discriminate|]. split; [reflexivity|]. cbn. lia.
Qed.
Lemma constant_hears {cfg : Cfg} l s make w r n : forall k, hear l s make w = r -> hears l (fun _ => s) make k (at_beacons w (repeat BeaconTime n)) = repeat r n.
Proof. intros k E. revert k. induction n as [|n IH]; intros k; [reflexivity|]. cbn [repeat at_beacons hears]. rewrite E. f_equal. apply IH. Qed.
Lemma static_starves {cfg : Cfg} n : hears (ex_arms 42) (fun _ => ex_setup) static_map 0 (at_beacons [] (Queued 42 :: repeat BeaconTime n)) = repeat (Ok (Some (false, false))) n.
Proof. cbn [at_beacons]. apply constant_hears. destruct cfg as [[] [] []]; vm_compute; reflexivity. Qed.
Lemma lowest_starves {cfg : Cfg} n : hears (ex_arms 16) (fun _ => ex_setup) tim_bitmap_list 0 (at_beacons [] (Queued 16 :: repeat BeaconTime n)) = repeat (Ok (Some (false, false))) n.
Proof. cbn [at_beacons]. apply constant_hears. destruct cfg as [[] [] []]; vm_compute; reflexivity. Qed.
Lemma static_swallows {cfg : Cfg} : exists frame tb, static_map [42] = Ok tb /\ send_beacon ex_setup tb = Ok frame /\
  match_frames frame (Some true) [mkArm _ _ (mgmt_kind Beacon) (rd_mgmt Beacon) (fun x => get_first_element_raw (bb_elements (snd x)) (Id 7))] = Ok (Ok None).
Proof. destruct cfg as [[] [] []]; eexists _, _; (split; [vm_compute; reflexivity|]); (split; [vm_compute; reflexivity|]); vm_compute; reflexivity. Qed.
Lemma ex_heard {cfg : Cfg} : hears (ex_arms 42) (fun _ => ex_setup) whole_map 0 (at_beacons [] [BeaconTime; Queued 42; Queued 16; BeaconTime; Fetched 42; Queued 0; BeaconTime]) =
  [Ok (Some (false, false)); Ok (Some (false, true)); Ok (Some (true, false))].
Proof.
  rewrite (whole_history _ 42); [reflexivity|apply ex_listens|lia|intros _; apply ex_setup_ok|].
  unfold known_stations. repeat (apply Forall_cons; [cbn; lia || exact Logic.I|]). apply Forall_nil.
Qed.
