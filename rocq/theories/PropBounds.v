(** C82: how much received bytes can yield. *)
From Verif Require Import Base SpecBase Bits Layouts Common Elements SpecElements ElementTypes Tim SpecTim Amsdu Data SpecData Suites Rsn SpecRsn Eapol SpecForward SpecBounds BoundsFacts.

(** ** C82 *)
(** The elements that are found in [n] bytes take two bytes and their information each, without overlap. *)
Theorem C82_elements : forall (cfg : Cfg) bs es, raw_elements bs = Ok es ->
  list_sum (map (fun e => 2 + length (re_slice e)) es) <= length bs /\ 2 * length es <= length bs.
Proof. exact (fun cfg bs es E => conj (@elements_total cfg bs es E) (@elements_number cfg bs es E)). Qed.
Print Assumptions C82_elements.
(** The bound is reached for every number. *)
Theorem C82_elements_most : forall (cfg : Cfg) n, exists bs es, length bs = 2 * n + slack /\ raw_elements bs = Ok es /\ length es = n.
Proof. exact @elements_most. Qed.
Print Assumptions C82_elements_most.
(** Lookups find no more, typed or not. *)
Theorem C82_lookup : forall (cfg : Cfg) bs,
  (forall W R (t : ElementType W R) l, lookup_id (et_id t) -> NoPanic (et_read t) -> get_matching_elements t bs = Ok l -> 2 * length l <= length bs) /\
  (forall id l, lookup_id id -> get_matching_elements_raw bs id = Ok l -> 2 * length l <= length bs).
Proof. exact (fun cfg bs => conj (fun W R t l => @typed_number cfg W R t bs l) (fun id l => @raw_number cfg bs id l)). Qed.
Print Assumptions C82_lookup.
Example C82_lookup_ex (cfg : Cfg) : exists l, get_matching_elements_raw [0; 0; 1; 1; 130; 0; 1; 65]%N (Id 0) = Ok l /\ length l = 2.
Proof. eexists. split; [destruct cfg as [[] [] []]; vm_compute; reflexivity|reflexivity]. Qed.
(** Any iterator over items of at least [size] bytes. *)
Theorem C82_iterator : forall (A : Type) (r : reader A) size bs all, TakesAtLeast size r -> iter_all r bs = Ok all -> size * length all <= length bs.
Proof. exact @iter_number. Qed.
Print Assumptions C82_iterator.
Example C82_iterator_ex : TakesAtLeast 16 rd_pmkid /\ exists all, iter_all rd_pmkid (repeat 7%N 40) = Ok all /\ length all = 2.
Proof.
  split; [|eexists; split; [vm_compute; reflexivity|reflexivity]].
  intros bs x n. unfold rd_pmkid, rd_bytes. destruct (_ <? _); [discriminate|]. intros H. injection H as _ <-. apply le_n.
Qed.
(** A subframe of an A-MSDU takes sixteen bytes; every number of them is possible. *)
Theorem C82_amsdu : forall (cfg : Cfg) bs l, wf_bytes bs -> amsdu_items bs = Ok l -> 16 * length l <= length bs.
Proof. exact @amsdu_number. Qed.
Print Assumptions C82_amsdu.
Theorem C82_amsdu_most : forall (cfg : Cfg) n, exists bs l, length bs = 16 * n /\ wf_bytes bs /\ amsdu_items bs = Ok l /\ length l = n.
Proof. exact @amsdu_most. Qed.
Print Assumptions C82_amsdu_most.
(** A TIM element names at most one station per bit of its bitmap, none twice, and never more than 2007. *)
Theorem C82_tim : forall (cfg : Cfg) bs t n tb l, wf_bytes bs -> length bs <= 255 -> rd_tim bs = Ok (t, n) -> te_bitmap t = Some tb -> tb_aid_iter tb = Ok (Some l) ->
  length l <= 8 * (length bs - 3) - 1 /\ length l <= 2007 /\ NoDup (numbers l).
Proof. exact @tim_number. Qed.
Print Assumptions C82_tim.
Theorem C82_tim_most : forall (cfg : Cfg), exists bs t tb l, wf_bytes bs /\ length bs = 254 /\ rd_tim bs = Ok (t, 254) /\ te_bitmap t = Some tb /\
  tb_aid_iter tb = Ok (Some l) /\ length l = 2007.
Proof. exact @tim_most. Qed.
Print Assumptions C82_tim_most.
Example C82_tim_ex (cfg : Cfg) : exists l, tb_aid_iter (mkTB 0%N (Some (BSlice [255; 255]%N))) = Ok (Some l) /\ length l = 15.
Proof. eexists. split; [destruct cfg as [[] [] []]; vm_compute; reflexivity|reflexivity]. Qed.
(** The lists of an RSN element do not overlap: together with the version they fit into the element, whatever the counts say. *)
Theorem C82_rsn : forall (cfg : Cfg) bs y n, wf_bytes bs -> rd_rsn bs = Ok (y, n) ->
  2 + 4 * number_of rd_cipher (rsn_pairwise y) + 4 * number_of rd_akm (rsn_akm y) + 16 * number_of rd_pmkid (rsn_pmkids y) <= length bs.
Proof. exact @rsn_number. Qed.
Print Assumptions C82_rsn.
(** The count says 65535; one suite is there: the list is not there. *)
Example C82_rsn_ex (cfg : Cfg) : exists y n, rd_rsn [1; 0; 0; 15; 172; 4; 1; 0; 0; 15; 172; 4; 255; 255; 0; 15; 172; 2]%N = Ok (y, n) /\
  number_of rd_cipher (rsn_pairwise y) = 1 /\ number_of rd_akm (rsn_akm y) = 0.
Proof. destruct cfg as [[] [] []]; eexists; eexists; (split; [vm_compute; reflexivity|split; vm_compute; reflexivity]). Qed.
