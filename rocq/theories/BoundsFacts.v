(** How much iterating over received bytes can yield. *)
From Coq Require Import Sorted Lia Arith.
From Verif Require Import Base SpecBase BaseFacts Common Elements SpecElements ElementsFacts Tim SpecTim TimFacts Amsdu Data SpecData DataFacts DataFacts5 SpecMgmt Rsn SpecRsn RsnFacts2.
From Verif Require Import SpecForward ForwardFacts ResendFacts2 RsnFacts3 MgmtFacts5 PropElements PropTim PropData PropRsn SpecBounds.

Section Bounds.
Context {cfg : Cfg}.

Lemma enc_elements_total es : length (enc_elements es) = list_sum (map (fun e => 2 + length (re_slice e)) es).
Proof.
  unfold enc_elements. induction es as [|e es IH]; [reflexivity|]. cbn [map concat]. rewrite app_length, IH. cbn [map list_sum fold_right].
  unfold enc_element. cbn. reflexivity.
Qed.
Lemma elements_total bs es : raw_elements bs = Ok es -> list_sum (map (fun e => 2 + length (re_slice e)) es) <= length bs.
Proof.
  intros E. destruct (C09_iteration cfg bs) as (es' & tail & E' & B & _). rewrite E in E'. injection E' as <-.
  rewrite B, app_length, enc_elements_total. lia.
Qed.
Lemma list_sum_ge {A} (f : A -> nat) k l : (forall x, k <= f x) -> k * length l <= list_sum (map f l).
Proof. intros H. induction l as [|x l IH]; cbn; [lia|]. specialize (H x). unfold list_sum in IH. lia. Qed.
Lemma elements_number bs es : raw_elements bs = Ok es -> 2 * length es <= length bs.
Proof.
  intros E. apply elements_total in E. pose proof (list_sum_ge (fun e => 2 + length (re_slice e)) 2 es ltac:(cbn; lia)). lia.
Qed.
Lemma somes_le {A} (l : list (option A)) : length (somes l) <= length l.
Proof. induction l as [|[x|] l IH]; cbn; lia. Qed.
Lemma Forall2_len {A B} (P : A -> B -> Prop) l m : Forall2 P l m -> length l = length m.
Proof. induction 1; cbn; lia. Qed.
Lemma typed_number {W R} (t : ElementType W R) bs l : lookup_id (et_id t) -> NoPanic (et_read t) ->
  get_matching_elements t bs = Ok l -> 2 * length l <= length bs.
Proof.
  intros I N E. destruct (C12_lookup cfg W R t bs I N) as (es & os & R1 & F & M & _). rewrite E in M. injection M as ->.
  apply elements_number in R1. apply Forall2_len in F. pose proof (somes_le os). lia.
Qed.
Lemma filter_le {A} (f : A -> bool) l : length (filter f l) <= length l.
Proof. induction l as [|x l IH]; cbn; [lia|]. destruct (f x); cbn; lia. Qed.
Lemma raw_number bs id l : lookup_id id -> get_matching_elements_raw bs id = Ok l -> 2 * length l <= length bs.
Proof.
  intros I E. destruct (C12_lookup_raw cfg bs id I) as (es & R1 & f & _ & M & _). rewrite E in M. injection M as ->.
  apply elements_number in R1. pose proof (filter_le f es). lia.
Qed.

Lemma nth_repeat_lt {A} (a d : A) n k : k < n -> nth k (repeat a n) d = a.
Proof. revert k. induction n as [|n IH]; intros k H; [lia|]. destruct k; cbn; [reflexivity|]. apply IH. lia. Qed.

(** tightness *)
Lemma empty_elements n : enc_elements (repeat (mkRaw 0%N []) n) = repeat 0%N (2 * n).
Proof.
  induction n as [|n IH]; [reflexivity|]. replace (2 * S n) with (S (S (2 * n))) by lia. cbn [repeat]. rewrite <- IH. reflexivity.
Qed.
Lemma elements_most n : exists bs es, length bs = 2 * n + slack /\ raw_elements bs = Ok es /\ length es = n.
Proof.
  exists (repeat 0%N (2 * n) ++ repeat 0%N slack), (repeat (mkRaw 0%N []) n). split; [rewrite app_length, !repeat_length; reflexivity|].
  split; [|apply repeat_length]. rewrite <- empty_elements. apply C10_strict_end_partial.
  - apply Forall_forall. intros e H. apply repeat_spec in H as ->. cbn. unfold fits. cbn. lia.
  - unfold end_visible, slack. destruct strict_end; [right; left; discriminate|left; reflexivity].
  - left. unfold slack, no_element. destruct strict_end; exact I.
Qed.

(** iterators *)
Lemma iter_number {A} (r : reader A) size bs all : TakesAtLeast size r -> iter_all r bs = Ok all -> size * length all <= length bs.
Proof.
  intros T E. apply collect_coming in E. change (length bs) with (length (unread (Some bs))).
  induction E as [|bs' e E|bs' x n xs E L C IH]; cbn [length unread] in *; try lia.
  apply T in E. rewrite skipn_length in IH. lia.
Qed.

(** A-MSDUs *)
Lemma amsdu_bytes_number l bs : amsdu_bytes l bs -> 16 * length l <= length bs.
Proof.
  induction 1 as [|s l pad rest Hs Hp _ IH]; [cbn; lia|]. rewrite !app_length, Hp. cbn [length].
  assert (G : 14 <= length (enc_sub s)).
  { destruct Hs as ([D _] & [S' _] & _). unfold enc_sub. rewrite !app_length, le_bytes_length, D, S'. lia. }
  assert (K : length (enc_sub s) + pad_length (length (enc_sub s)) >= 16).
  { unfold pad_length. generalize dependent (length (enc_sub s)). intros k _ G. destruct (Nat.lt_ge_cases k 16); [|lia].
    assert (k = 14 \/ k = 15) as [-> | ->] by lia; cbn; lia. }
  lia.
Qed.
Lemma amsdu_number bs l : wf_bytes bs -> amsdu_items bs = Ok l -> 16 * length l <= length bs.
Proof.
  intros W E. destruct (C33_iterate_all_partial cfg bs W) as (l' & body & tail & -> & B & [[_ Q]|(s & pad & _ & _ & _ & Q)]); rewrite E in Q.
  - injection Q as <-. apply amsdu_bytes_number in B. rewrite app_length. lia.
  - destruct (strict_end && _); [|discriminate]. injection Q as <-. apply amsdu_bytes_number in B. rewrite app_length. lia.
Qed.

Definition empty_sub : AMSDUSubframe bytes := mkSub (addr 1) (addr 2) [].
Lemma amsdu_most n : exists bs l, length bs = 16 * n /\ wf_bytes bs /\ amsdu_items bs = Ok l /\ length l = n.
Proof.
  assert (G : exists bs, length bs = 16 * n /\ wf_bytes bs /\ amsdu_bytes (repeat empty_sub n) bs).
  { induction n as [|n (bs & L & W & B)]; [exists []; split; [reflexivity|]; split; constructor|].
    exists (enc_sub empty_sub ++ [0; 0]%N ++ bs). split; [rewrite !app_length, L; cbn; lia|]. split.
    - apply Forall_app; split; [repeat constructor|]. apply Forall_app; split; [repeat constructor|exact W].
    - cbn [repeat]. apply amsdu_cons; [|reflexivity|exact B]. split; [|split; [|split]]; try (split; [reflexivity|]); repeat constructor. }
  destruct G as (bs & L & W & B). exists bs, (repeat empty_sub n). split; [exact L|]. split; [exact W|]. split; [|apply repeat_length].
  rewrite <- (app_nil_r bs). apply C33_iterate; auto; [constructor|cbn; lia].
Qed.

(** the TIM *)
Lemma sorted_nodup l : StronglySorted lt l -> NoDup l.
Proof.
  induction 1 as [|a l S IH F]; constructor; [|exact IH]. intros H. apply (proj1 (Forall_forall _ _) F) in H. lia.
Qed.
Lemma tim_number bs t n tb l : wf_bytes bs -> length bs <= 255 -> rd_tim bs = Ok (t, n) -> te_bitmap t = Some tb -> tb_aid_iter tb = Ok (Some l) ->
  length l <= 8 * (length bs - 3) - 1 /\ length l <= 2007 /\ NoDup (numbers l).
Proof.
  intros W L R B I. destruct (C19_partial cfg bs t n tb W L R B) as (count & period & ctl & map & -> & -> & _ & l' & I' & S & M).
  rewrite I in I'. injection I' as <-. pose proof (sorted_nodup _ S) as N.
  assert (E : length l = length (numbers l)) by (unfold numbers; now rewrite map_length).
  assert (Q : forall a, In a (numbers l) -> 1 <= a <= 2007 /\ 8 * spec_n1 ctl < a < 8 * spec_n1 ctl + 8 * length map).
  { intros a H. apply M in H as [[H V] D]. split; [exact H|]. unfold virtual_bit in V. apply andb_true_iff in V as [V1 V2].
    apply Nat.leb_le in V1. pose proof (Nat.div_mod a 8 ltac:(lia)). pose proof (Nat.mod_upper_bound a 8 ltac:(lia)).
    destruct (Nat.lt_ge_cases (a / 8 - spec_n1 ctl) (length map)) as [Lt|Ge]; [lia|].
    rewrite nth_overflow in V2 by exact Ge. rewrite N.bits_0 in V2. discriminate. }
  assert (In1 : incl (numbers l) (seq 1 2007)) by (intros a H; apply Q in H; apply in_seq; lia).
  assert (In2 : incl (numbers l) (seq (8 * spec_n1 ctl + 1) (8 * length map - 1))) by (intros a H; apply Q in H; apply in_seq; lia).
  pose proof (NoDup_incl_length N In1) as L1. pose proof (NoDup_incl_length N In2) as L2. rewrite seq_length in L1, L2.
  split; [cbn [length]; lia|]. split; [lia|exact N].
Qed.

Lemma tim_most : exists bs t tb l, wf_bytes bs /\ length bs = 254 /\ rd_tim bs = Ok (t, 254) /\ te_bitmap t = Some tb /\ tb_aid_iter tb = Ok (Some l) /\ length l = 2007.
Proof.
  assert (B : exists l, tb_aid_iter (mkTB 0%N (Some (BSlice (repeat 255%N 251)))) = Ok (Some l) /\ StronglySorted lt (numbers l) /\
    forall a, In a (numbers l) <-> indicates 0%N (repeat 255%N 251) a)
    by (apply C19_exact_partial; [reflexivity|rewrite repeat_length; change (spec_n1 0%N) with 0; lia|left; reflexivity]).
  destruct B as (l & I & S & M).
  exists (0 :: 1 :: 0 :: repeat 255 251)%N, (mkTIM 0 1 (Some (mkTB 0%N (Some (BSlice (repeat 255%N 251))))))%N, (mkTB 0%N (Some (BSlice (repeat 255%N 251)))), l.
  split; [do 3 (constructor; [reflexivity|]); apply Forall_forall; intros x H; apply repeat_spec in H as ->; reflexivity|].
  split; [reflexivity|]. split; [unfold rd_tim; destruct cfg as [[] [] []]; vm_compute; reflexivity|]. split; [reflexivity|]. split; [exact I|].
  assert (E : length l = length (numbers l)) by (unfold numbers; now rewrite map_length). rewrite E. apply Nat.le_antisymm.
  - rewrite <- (seq_length 2007 1). apply NoDup_incl_length; [apply sorted_nodup, S|]. intros a H. apply M in H as [H _]. apply in_seq. lia.
  - rewrite <- (seq_length 2007 1) at 1. apply NoDup_incl_length; [apply seq_NoDup|]. intros a H. apply in_seq in H. apply M. split; [lia|].
    unfold virtual_bit. change (spec_n1 0%N) with 0. cbn [Nat.leb andb]. rewrite Nat.sub_0_r. pose proof (Nat.div_lt_upper_bound a 8 251 ltac:(lia) ltac:(lia)).
    rewrite nth_repeat_lt by assumption. pose proof (Nat.mod_upper_bound a 8 ltac:(lia)).
    destruct (a mod 8) as [|[|[|[|[|[|[|[|]]]]]]]]; try lia; reflexivity.
Qed.

(** the RSN element *)
Lemma list_number {A} (r : reader A) size b : 0 < size -> ItemsOf size r -> size * number_of r (Some (Iter b)) <= length b.
Proof. intros P I. cbn [number_of]. rewrite (count_fixed r size b P I). apply Nat.mul_div_le. lia. Qed.
Lemma rsn_number bs y n : wf_bytes bs -> rd_rsn bs = Ok (y, n) ->
  2 + 4 * number_of rd_cipher (rsn_pairwise y) + 4 * number_of rd_akm (rsn_akm y) + 16 * number_of rd_pmkid (rsn_pmkids y) <= length bs.
Proof.
  intros W E. destruct (C17_parse cfg bs W) as [((e & X) & _)|(y' & n' & tail & X & -> & S & _)]; rewrite E in X; [discriminate|].
  injection X as <- <-. destruct y as [g p a c k m]. unfold raw_enc. cbn [rsn_group rsn_pairwise rsn_akm rsn_caps rsn_pmkids rsn_group_mgmt].
  rewrite !app_length, le_bytes_length.
  assert (P1 : 4 * number_of rd_cipher p <= length (raw_list p)).
  { destruct p as [[l|b]|]; [exfalso; destruct g; exact S| |cbn; lia]. cbn [raw_list]. rewrite app_length. pose proof (list_number rd_cipher 4 b ltac:(lia) rd_cipher_items). lia. }
  assert (P2 : 4 * number_of rd_akm a <= length (raw_list a)).
  { destruct a as [[l|b]|]; [exfalso; destruct g, p as [[|]|]; exact S| |cbn; lia]. cbn [raw_list]. rewrite app_length. pose proof (list_number rd_akm 4 b ltac:(lia) rd_akm_items). lia. }
  assert (P3 : 16 * number_of rd_pmkid k <= length (raw_list k)).
  { destruct k as [[l|b]|]; [exfalso; destruct g, p as [[|]|], a as [[|]|], c; exact S| |cbn; lia]. cbn [raw_list]. rewrite app_length.
    pose proof (list_number rd_pmkid 16 b ltac:(lia) (rd_bytes_items 16)). lia. }
  lia.
Qed.
End Bounds.
