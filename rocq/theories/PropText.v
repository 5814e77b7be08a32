(** C66: text output. *)
From Verif Require Import Base Bits Layouts Common Enums ElementTypes SpecElementTypes Tim SpecTim Elements SpecForward Text TextIter SpecText TextFacts TextFacts2.

(** ** C66 *)
(** Numbers: [numeral base t n] says that [t] is [n] in the given base without leading zeros. There is one such text. *)
Theorem C66_numeral : forall base t u n m, (2 <= base <= 16)%N -> numeral base t n ->
  (numeral base t m -> n = m) /\ (numeral base u n -> t = u).
Proof. exact (fun base t u n m B T => conj (numeral_value base t n m T) (numeral_one base t u n B T)). Qed.
Print Assumptions C66_numeral.
Theorem C66_number_list : forall t l l', number_list t l -> number_list t l' -> l = l'.
Proof. exact number_list_unique. Qed.
Print Assumptions C66_number_list.
Theorem C66_aid : forall a, numeral 10 (aid_debug a) (aid_aid a).
Proof. exact aid_text. Qed.
Print Assumptions C66_aid.
Theorem C66_bitmap_bytes : forall b bs, bm_bytes b = Ok bs -> exists x, bm_debug b = Ok x /\ number_list x bs.
Proof. exact @bitmap_bytes. Qed.
Print Assumptions C66_bitmap_bytes.
(** The text of a TIM bitmap lists 0 for group traffic and the association IDs which iterating gives (C19). *)
Theorem C66_bitmap : forall (cfg : Cfg) t l, tb_aid_iter t = Ok l -> exists x, tb_display t = Ok x /\ number_list x (announced (tb_traffic t) l).
Proof. exact @bitmap_text. Qed.
Print Assumptions C66_bitmap.
(** TIM elements with the same text show the same. *)
Theorem C66_element : forall (cfg : Cfg) t t' x, te_display t = Ok x -> te_display t' = Ok x -> exists count period bitmap,
  tim_shown t count period bitmap /\ tim_shown t' count period bitmap.
Proof. exact @element_text_inj. Qed.
Print Assumptions C66_element.
Theorem C66_element_text : forall (cfg : Cfg) t x, te_display t = Ok x -> exists count period bitmap, tim_shown t count period bitmap /\
  exists c p, numeral 10 c count /\ numeral 10 p period /\
  match bitmap with
  | None => x = str "TIMElement { dtim_count: " ++ c ++ str ", dtim_period: " ++ p ++ str " }"
  | Some l => exists y, number_list y l /\ x = str "TIMElement { dtim_count: " ++ c ++ str ", dtim_period: " ++ p ++ str ", association_ids: " ++ y ++ str " }"
  end.
Proof. exact @element_text. Qed.
Print Assumptions C66_element_text.
(** Every received TIM element can be printed. *)
Theorem C66_received : forall (cfg : Cfg) bs t n, wf_bytes bs -> length bs <= 255 -> rd_tim bs = Ok (t, n) ->
  (exists x, te_display t = Ok x) /\ exists y, te_defmt t = Ok y.
Proof. exact @received_text. Qed.
Print Assumptions C66_received.
Example C66_tim_ex (cfg : Cfg) : exists t, rd_tim [2; 3; 1; 0; 0x30]%N = Ok (t, 5) /\
  te_display t = Ok (str "TIMElement { dtim_count: 2, dtim_period: 3, association_ids: [0, 12, 13] }") /\
  te_defmt t = Ok (str "TIMElement { dtim_count: 2, dtim_period: 3, bitmap: Some([12, 13][]) }").
Proof. eexists. destruct cfg as [[] [] []]; vm_compute; repeat split. Qed.
(** With defmt, a bitmap without association IDs is the empty list; behind any other list an empty list is printed as well, so
    what is printed is no list. *)
Theorem C66_defmt_partial : forall (cfg : Cfg) t l, tb_aid_iter t = Ok l -> exists x, tb_defmt t = Ok x /\
  match l with
  | Some (a :: aids) => exists y, number_list y (map aid_aid (a :: aids)) /\ x = y ++ str "[]"
  | _ => number_list x []
  end.
Proof. exact @defmt_text. Qed.
Print Assumptions C66_defmt_partial.
(** The text of the element around it has count and period. Group traffic is not in it. *)
Theorem C66_element_defmt : forall (cfg : Cfg) t y, te_defmt t = Ok y -> exists c p, numeral 10 c (te_count t) /\ numeral 10 p (te_period t) /\ exists b,
  y = str "TIMElement { dtim_count: " ++ c ++ str ", dtim_period: " ++ p ++ str ", bitmap: " ++ b ++ str " }" /\
  match te_bitmap t with
  | None => b = str "None"
  | Some bitmap => exists aids x, tb_aid_iter bitmap = Ok aids /\ b = str "Some(" ++ x ++ str ")" /\
    match aids with
    | Some (a :: l) => exists z, number_list z (map aid_aid (a :: l)) /\ x = z ++ str "[]"
    | _ => number_list x []
    end
  end.
Proof. exact @element_defmt. Qed.
Print Assumptions C66_element_defmt.
Theorem C66_group_traffic_refuted : forall (cfg : Cfg), exists t t' n n' y, rd_tim [2; 3; 1; 0; 0x30]%N = Ok (t, n) /\ rd_tim [2; 3; 0; 0; 0x30]%N = Ok (t', n') /\
  te_display t <> te_display t' /\ te_defmt t = Ok y /\ te_defmt t' = Ok y.
Proof. exact @group_traffic_hidden. Qed.
Print Assumptions C66_group_traffic_refuted.
Theorem C66_defmt_refuted : forall (cfg : Cfg) t aids x, tb_aid_iter t = Ok (Some aids) -> aids <> [] -> tb_defmt t = Ok x ->
  forall l, ~ number_list x l.
Proof. exact @defmt_broken. Qed.
Print Assumptions C66_defmt_refuted.
(** PMKIDs: hexadecimal, so different PMKIDs have different texts ... *)
Theorem C66_pmkid : forall x, exists h, pmkid_display x = repeat 32%N (16 - length h) ++ h /\ pmkid_defmt x = h /\ numeral 16 h (be_val x).
Proof. exact pmkid_text. Qed.
Print Assumptions C66_pmkid.
Theorem C66_pmkid_distinct : forall x y, wf_bytes x -> wf_bytes y -> length x = length y -> pmkid_display x = pmkid_display y -> x = y.
Proof. exact pmkid_inj. Qed.
Print Assumptions C66_pmkid_distinct.
(** ... but zeros in front are left out: not every PMKID has two digits for each of its 16 bytes. *)
Theorem C66_pmkid_refuted : exists x, wf_bytes x /\ length x = 16 /\ length (pmkid_display x) < 32.
Proof. exact pmkid_short. Qed.
Print Assumptions C66_pmkid_refuted.
Example C66_pmkid_ex : pmkid_display ([0; 0x1f] ++ repeat 0xa0 14)%N = str "1fa0a0a0a0a0a0a0a0a0a0a0a0a0a0".
Proof. reflexivity. Qed.
(** Rates in units of 500 kbit/s: whole Mbit/s, ".5" for odd ones, and whether the rate is basic. *)
Theorem C66_rate : forall r, (r < 256)%N -> exists t, numeral 10 t (r mod 128 / 2) /\
  rate_display r = t ++ (if N.odd r then str ".5" else []) ++ str "Mbit/s " ++ (if 128 <=? r then str " (B)" else [])%N.
Proof. exact rate_text. Qed.
Print Assumptions C66_rate.
Theorem C66_rate_distinct : forall r s, (r < 256)%N -> (s < 256)%N -> rate_display r = rate_display s -> r = s.
Proof. exact rate_inj. Qed.
Print Assumptions C66_rate_distinct.
Example C66_rate_ex : rate_display 0x8b = str "5.5Mbit/s  (B)" /\ rate_display 108 = str "54Mbit/s ".
Proof. split; reflexivity. Qed.
(** VHT MCS maps: one name for each of the eight streams *)
Theorem C66_vht_map : forall m, exists names, vht_map_debug m = str "[" ++ join (str ", ") names ++ str "]" /\ length names = 8 /\
  forall n, 1 <= n <= 8 -> nth_error names (n - 1) = Some (vht_range_name (spec_vht_mcs m n)).
Proof. exact vht_map_text. Qed.
Print Assumptions C66_vht_map.
Theorem C66_vht_map_distinct : forall m m', (m < 65536)%N -> (m' < 65536)%N -> vht_map_debug m = vht_map_debug m' -> m = m'.
Proof. exact vht_map_inj. Qed.
Print Assumptions C66_vht_map_distinct.
Example C66_vht_map_ex : vht_map_debug 0xfff6 =
  str "[ZeroToNine, ZeroToEight, NotSupported, NotSupported, NotSupported, NotSupported, NotSupported, NotSupported]".
Proof. reflexivity. Qed.
(** Iterators over received data: printing one shows the items it still has to yield, in this order, whatever their own texts are, and the two ways
    of printing ([Debug] and [defmt]) write the same. The iterator itself is not moved: the items are those of a copy. *)
Theorem C66_iterator : forall (A : Type) (r : reader A) (text : A -> bytes) (bs : bytes) all,
  TakesBytes r -> iter_all r bs = Ok all ->
  exists t, shows_items text t all /\ iter_debug r text (Some bs) = Ok t /\ iter_defmt r text (Some bs) = Ok t.
Proof. exact @iter_text. Qed.
Print Assumptions C66_iterator.
(** An exhausted iterator shows as an empty list. *)
Theorem C66_iterator_exhausted : forall (A : Type) (r : reader A) (text : A -> bytes),
  iter_debug r text None = Ok (str "[]") /\ iter_defmt r text None = Ok (str "[]").
Proof. exact @iter_text_none. Qed.
Print Assumptions C66_iterator_exhausted.
(** three channel numbers *)
Example C66_iterator_ex : TakesBytes rd_u8 /\ iter_all rd_u8 [1; 6; 11]%N = Ok [1; 6; 11]%N /\
  iter_debug rd_u8 fmt_dec (Some [1; 6; 11]%N) = Ok (str "[1, 6, 11]") /\ iter_defmt rd_u8 fmt_dec (Some [1; 6; 11]%N) = Ok (str "[1, 6, 11]").
Proof. exact @iter_text_ex. Qed.

(** Received SSIDs and mesh IDs are shown with exactly the received characters. *)
Theorem C66_ssid : forall (cfg : Cfg) bs x n, et_read SSIDElement bs = Ok (x, n) \/ et_read MeshIDElement bs = Ok (x, n) -> ssid_display x = bs.
Proof. exact @ssid_text. Qed.
Print Assumptions C66_ssid.
Example C66_ssid_ex (cfg : Cfg) : et_read SSIDElement (str "OpenRF") = Ok (str "OpenRF", 6).
Proof. vm_compute. reflexivity. Qed.
(** OWE transition mode elements: the address and the quoted SSID as other code writes them ([mac], [quoted]), and band and channel if there are any *)
Theorem C66_owe : forall mac quoted x, exists band channel,
  numeral 10 band match owe_band x with Some b => fst b | None => 0 end /\
  numeral 10 channel match owe_band x with Some b => snd b | None => 0 end /\
  owe_display mac quoted x = str "OWETransitionModeElement { bssid: " ++ mac (owe_bssid x) ++ str ", ssid: " ++ quoted (owe_ssid x) ++
    match owe_band x with
    | Some _ => str ", band_and_channel_info: BandAndChannelInfo { band: " ++ band ++ str ", channel: " ++ channel ++ str " } }"
    | None => str " }"
    end.
Proof. exact owe_text. Qed.
Print Assumptions C66_owe.
(** If the texts of addresses and strings tell those apart, those of the elements do. *)
Theorem C66_owe_distinct : forall P Q mac quoted x y, self_delimiting P mac -> self_delimiting Q quoted ->
  P (owe_bssid x) -> P (owe_bssid y) -> Q (owe_ssid x) -> Q (owe_ssid y) ->
  owe_display mac quoted x = owe_display mac quoted y -> x = y.
Proof. exact owe_inj. Qed.
Print Assumptions C66_owe_distinct.
(** two texts of this kind: colon separated hexadecimal digits, and strings between quotes *)
Example C66_owe_ex : self_delimiting (fun x => wf_bytes x /\ length x = 6) colon_hex /\ self_delimiting (fun _ => True) quote_escaped /\
  owe_display colon_hex quote_escaped (mkOWE [0x00; 0x80; 0x41; 0x13; 0x37; 0x43]%N (str "OWETest") (Some (81, 6)%N)) =
  str "OWETransitionModeElement { bssid: 00:80:41:13:37:43, ssid: " ++ [34]%N ++ str "OWETest" ++ [34]%N ++
  str ", band_and_channel_info: BandAndChannelInfo { band: 81, channel: 6 } }".
Proof. split; [exact colon_hex_delimited|]. split; [exact quote_delimited|]. vm_compute. reflexivity. Qed.
