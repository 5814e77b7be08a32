(** C19 to C21: the traffic indication map. *)
From Coq Require Import Sorted.
From Verif Require Import Base SpecBase Common Elements SpecElements Tim SpecTim TimFacts TimFacts2 TimFacts3.

(** ** C19: decoding *)
(** The full claim is false: bit 0 of a bitmap that does not start at byte 0 is an association ID,
    but is never reported. *)
Theorem C19_refuted : forall (cfg : Cfg), exists bs t tb, wf_bytes bs /\ rd_tim bs = Ok (t, length bs) /\ te_bitmap t = Some tb /\
  indicates 2 [1]%N 16 /\ bs = [0; 1; 2; 1]%N /\ reports tb (fun a => False).
Proof. exact @first_bit_lost. Qed.
Print Assumptions C19_refuted.
(** What is true: every received element reports exactly the indicated association IDs in
    ascending order, except for the ID of the very first bit of the bitmap. *)
Theorem C19_partial : forall (cfg : Cfg) bs t n tb,
  wf_bytes bs -> length bs <= 255 -> rd_tim bs = Ok (t, n) -> te_bitmap t = Some tb ->
  exists count period ctl map, bs = count :: period :: ctl :: map /\ tb = mkTB ctl (Some (BSlice map)) /\
    tb_traffic tb = spec_group ctl /\
    reports tb (fun a => indicates ctl map a /\ a <> 8 * spec_n1 ctl).
Proof. exact @received_reports. Qed.
Print Assumptions C19_partial.
(** If the bitmap starts at byte 0 or its first bit is clear, the claim holds. *)
Theorem C19_exact_partial : forall (cfg : Cfg) ctl map, (ctl < 256)%N -> spec_n1 ctl + length map <= 2048 ->
  spec_n1 ctl = 0 \/ N.testbit (hd 0%N map) 0 = false ->
  reports (mkTB ctl (Some (BSlice map))) (indicates ctl map).
Proof. exact @reports_exact. Qed.
Print Assumptions C19_exact_partial.
Example C19_ex (cfg : Cfg) :
  rd_tim [2; 3; 1; 1; 0x30]%N = Ok (tim_value 2 3 (Some (1, [1; 0x30])%N), 5) /\
  spec_n1 1 = 0 /\ indicates 1 [1; 0x30]%N 12 /\ indicates 1 [1; 0x30]%N 13 /\ ~ indicates 1 [1; 0x30]%N 14 /\
  indicates 0x82 [0; 0x80]%N (8 * 131 + 7).
Proof.
  split; [destruct cfg as [[] [] []]; reflexivity|]. split; [reflexivity|].
  split; [split; [lia|reflexivity]|]. split; [split; [lia|reflexivity]|].
  split; [intros [_ H]; discriminate H|split; [lia|reflexivity]].
Qed.
(** The checked constructor accepts exactly the bitmaps inside the 251 bytes of the virtual
    bitmap. *)
Theorem C19_new_raw : forall ctl map, (ctl < 256)%N -> exists x, tb_new_raw ctl (Some (BSlice map)) = Ok x /\
  ((x = None /\ 251 < spec_n1 ctl + length map) \/
   (x = Some (mkTB ctl (Some (BSlice map))) /\ spec_n1 ctl + length map <= 251)).
Proof. exact @new_raw_spec. Qed.
Print Assumptions C19_new_raw.
(** Bitmaps far longer than an element can hold make the iteration panic in debug builds. *)
Theorem C19_oversized_refuted : forall (cfg : Cfg), overflow_checks = true ->
  exists ctl map, tb_aid_iter (mkTB ctl (Some (BSlice map))) = Panic.
Proof. exact (fun cfg O => ex_intro _ _ (ex_intro _ _ (aid_iter_oversized O))). Qed.
Print Assumptions C19_oversized_refuted.
(** The exact condition: a bit set for an ID beyond 65535. *)
Theorem C19_panics : forall (cfg : Cfg) ctl map, (ctl < 256)%N ->
  tb_aid_iter (mkTB ctl (Some (BSlice map))) = Panic <->
  overflow_checks = true /\ exists k, 1 <= k < 8 * length map /\ N.testbit (nth (k / 8) map 0%N) (N.of_nat (k mod 8)) = true /\
    (65535 < N.of_nat (8 * spec_n1 ctl) + N.of_nat k mod 65536)%N.
Proof. exact @aid_iter_panics. Qed.
Print Assumptions C19_panics.
Example C19_panics_ex (cfg : Cfg) map : length map <= 255 -> tb_aid_iter (mkTB 255%N (Some (BSlice map))) <> Panic.
Proof.
  intros L P. apply C19_panics in P as (_ & k & K & _ & Q); [|reflexivity]. change (spec_n1 255) with 254 in Q. rewrite N.mod_small in Q; lia.
Qed.

(** ** C20: constructing *)
(** [tim_bitmap![...]]: the element on the air indicates exactly the given IDs, and group traffic
    exactly if 0 is among them. Iterating the received element gives them back, except for a lowest
    ID that is a multiple of 16. *)
Theorem C20_list_partial : forall (cfg : Cfg) aids low, Forall (fun a => a <= 2007) aids -> lowest aids low ->
  exists tb ctl bs, tim_bitmap_list aids = Ok tb /\ received tb (mkTB ctl (Some (BSlice bs))) /\
    (spec_group ctl = true <-> In 0 aids) /\
    (forall a, indicates ctl bs a <-> In a aids /\ a <> 0) /\
    reports (mkTB ctl (Some (BSlice bs))) (fun a => In a aids /\ a <> 0 /\ a <> 16 * (low / 16)).
Proof. exact @list_received. Qed.
Print Assumptions C20_list_partial.
(** [tim_bitmap!(min => max)]: likewise *)
Theorem C20_range_partial : forall (cfg : Cfg) min max, min <= max -> max <= 2007 ->
  exists tb ctl bs, tim_bitmap_range min max = Ok tb /\ received tb (mkTB ctl (Some (BSlice bs))) /\
    (spec_group ctl = true <-> min = 0) /\
    (forall a, indicates ctl bs a <-> min <= a <= max /\ a <> 0) /\
    reports (mkTB ctl (Some (BSlice bs))) (fun a => min <= a <= max /\ a <> 16 * (min / 16)).
Proof. exact @range_received. Qed.
Print Assumptions C20_range_partial.
Example C20_ex : Forall (fun a => a <= 2007) [0; 42; 69; 1337] /\ lowest [0; 42; 69; 1337] 42 /\ 42 <> 16 * (42 / 16).
Proof.
  split; [repeat constructor; lia|]. split; [|cbn; lia]. split; [cbn; auto|]. split; [discriminate|].
  intros a I. cbn in I. lia.
Qed.
(** [TIMBitmap::new_static]: what the received element reports in general. The IDs are shifted by
    the offset of the bitmap, and group traffic adds ID 1 if an ID below 8 is present. *)
Theorem C20_static_behaviour_partial : forall (cfg : Cfg) group aids low,
  length aids <= 2007 -> Forall (fun a => 1 <= a <= 2007) (numbers aids) -> lowest (numbers aids) low ->
  exists tb tb', tb_new_static group aids = Ok tb /\ received_alone tb tb' /\ tb_traffic tb' = group /\
    reports tb' (fun x => exists a, (In a (numbers aids) \/ group = true /\ low < 8 /\ a = 1) /\
                          x = a + 16 * (low / 16) /\ x <= 2007).
Proof. exact @static_received. Qed.
Print Assumptions C20_static_behaviour_partial.
(** The claim holds for lists with an ID below 16 (and without group traffic, with ID 1, or without
    IDs below 8), and for the empty list. *)
Theorem C20_static_partial : forall (cfg : Cfg) group aids low,
  length aids <= 2007 -> Forall (fun a => 1 <= a <= 2007) (numbers aids) -> lowest (numbers aids) low ->
  low < 16 -> (group = false \/ 8 <= low \/ low = 1) ->
  exists tb tb', tb_new_static group aids = Ok tb /\ received_alone tb tb' /\ tb_traffic tb' = group /\
    reports tb' (fun x => In x (numbers aids)).
Proof. exact @static_exact. Qed.
Print Assumptions C20_static_partial.
Theorem C20_static_empty : forall (cfg : Cfg) group, exists tb tb', tb_new_static group [] = Ok tb /\ received_alone tb tb' /\
  tb_traffic tb' = group /\ reports tb' (fun x => False).
Proof. exact @static_empty. Qed.
Print Assumptions C20_static_empty.
Definition aid_of (n : N) : AssociationID := match aid_new_checked n with Some a => a | None => 0%N end.
Example C20_static_ex : numbers [aid_of 9; aid_of 1337] = [9; 1337] /\ lowest (numbers [aid_of 9; aid_of 1337]) 9.
Proof. split; [reflexivity|]. split; [cbn; auto|]. split; [discriminate|]. intros a [<-|[<-|[]]] _; cbn; lia. Qed.
(** Three ways in which it fails. IDs from 16 on are reported as other IDs, *)
Theorem C20_static_shift_refuted : forall (cfg : Cfg), exists tb tb', tb_new_static false [aid_of 42] = Ok tb /\
  received_alone tb tb' /\ reports tb' (fun a => a = 74).
Proof. exact (@static_shift). Qed.
Print Assumptions C20_static_shift_refuted.
(** group traffic is reported as traffic for ID 1, *)
Theorem C20_static_group_refuted : forall (cfg : Cfg), exists tb tb', tb_new_static true [aid_of 2] = Ok tb /\
  received_alone tb tb' /\ reports tb' (fun a => a = 1 \/ a = 2).
Proof. exact (@static_group). Qed.
Print Assumptions C20_static_group_refuted.
(** and the announced length is always one too small, *)
Theorem C20_static_length_refuted : forall (cfg : Cfg) group aids tb count period,
  length aids <= 2007 -> Forall (fun a => 1 <= a <= 2007) (numbers aids) ->
  tb_new_static group aids = Ok tb -> (count <= period)%N -> (period < 256)%N -> exists body,
  Writes (wr_tim (mkTIM count period (Some tb))) body /\
  S (et_measure TIMElement (mkTIM count period (Some tb))) = length body.
Proof. exact @static_length. Qed.
Print Assumptions C20_static_length_refuted.
(** so that inside a frame the receiver misses the last byte of the bitmap. *)
Theorem C20_static_element_refuted : forall (cfg : Cfg), exists tb buf n t tb', tb_new_static false [aid_of 8] = Ok tb /\
  wr_wrapped (elem_of TIMElement (mkTIM 0 1 (Some tb))) (repeat 0%N 16) = Ok (buf, n) /\
  get_first_element TIMElement (firstn n buf) = Ok (Some t) /\ te_bitmap t = Some tb' /\
  tb_aid_iter tb' = Ok (Some []).
Proof. exact @static_element. Qed.
Print Assumptions C20_static_element_refuted.
(** [tim_bitmap!(0)] announces one byte less than it writes; [tim_bitmap![0, 0]] panics when
    written. *)
Theorem C20_zero_refuted : forall (cfg : Cfg),
  (Writes (wr_tim (mkTIM 0 1 (Some tim_bitmap_zero))) [0; 1; 1; 0]%N /\ et_measure TIMElement (mkTIM 0 1 (Some tim_bitmap_zero)) = 3) /\
  exists tb, tim_bitmap_list [0; 0] = Ok tb /\ wr_tim (mkTIM 0 1 (Some tb)) (repeat 0%N 16) = Panic.
Proof. exact @zero_only. Qed.
Print Assumptions C20_zero_refuted.

(** ** C21: the DTIM rule *)
Theorem C21_id : forall (cfg : Cfg), et_id TIMElement = Id 5.
Proof. exact (fun _ => eq_refl). Qed.
Print Assumptions C21_id.
(** The parser accepts exactly the bodies of at least two bytes in which the count does not exceed
    the period, takes all of the body, and never panics. *)
Theorem C21_read : forall (cfg : Cfg) bs t n, rd_tim bs = Ok (t, n) <->
  exists count period bitmap, bs = enc_tim count period bitmap /\ t = tim_value count period bitmap /\
    n = length bs /\ (count <= period)%N.
Proof. exact @rd_tim_spec. Qed.
Print Assumptions C21_read.
Theorem C21_no_panic : forall (cfg : Cfg), NoPanic rd_tim.
Proof. exact @rd_tim_NP. Qed.
Print Assumptions C21_no_panic.
Theorem C21_refuses : forall (cfg : Cfg) t buf, (te_period t < te_count t)%N -> wr_tim t buf = Err BadInput.
Proof. exact @wr_tim_refuses. Qed.
Print Assumptions C21_refuses.
(** Every other element is written, whatever kind of bitmap it has, and read back as an equal one. *)
Theorem C21_round_trip : forall (cfg : Cfg) t count period bitmap, tim_shows t count period bitmap -> wf_bitmap bitmap ->
  (count <= period)%N -> (period < 256)%N ->
  Writes (wr_tim t) (enc_tim count period bitmap) /\
  ReadsAll rd_tim (enc_tim count period bitmap) (tim_value count period bitmap) /\
  te_eq t (tim_value count period bitmap) = Ok true.
Proof. exact @tim_round_trip. Qed.
Print Assumptions C21_round_trip.
(** The announced length is right for received elements and for [tim_bitmap!]. *)
Theorem C21_announced : forall (cfg : Cfg) t count period bitmap, tim_shows t count period bitmap -> not_static t ->
  et_measure TIMElement t = length (enc_tim count period bitmap).
Proof. exact @tim_announces. Qed.
Print Assumptions C21_announced.
Example C21_ex (cfg : Cfg) :
  tim_shows (mkTIM 2 3 (Some (mkTB 1%N (Some (BConst (1 :: 0x30 :: repeat 0 249)%N 0 1))))) 2 3 (Some (1, [1; 0x30])%N) /\
  wf_bitmap (Some (1, [1; 0x30])%N) /\ enc_tim 2 3 (Some (1, [1; 0x30])%N) = [2; 3; 1; 1; 0x30]%N.
Proof.
  split; [repeat split; eexists; split; reflexivity|]. split; [|reflexivity].
  split; [reflexivity|repeat constructor; cbn; lia].
Qed.
(** An indicator without bitmap is not read back: a bitmap of one zero byte comes back. *)
Theorem C21_indicator_refuted : forall (cfg : Cfg) count period ctl,
  (ctl < 256)%N -> spec_group ctl = true -> (count <= period)%N -> (period < 256)%N ->
  let t := mkTIM count period (Some (mkTB ctl None)) in
  Writes (wr_tim t) [count; period; ctl; 0]%N /\ et_measure TIMElement t = 3.
Proof. exact @tim_indicator_only. Qed.
Print Assumptions C21_indicator_refuted.
