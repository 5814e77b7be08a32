(** Proofs about SSID, rates, HT/VHT MCS, OWE, key data and mesh peering elements. *)
From Verif Require Import Base BaseFacts Bits Layouts BitsFacts Enums EnumsFacts Utf8 SpecUtf8 Utf8Facts Elements SpecElements ElementsFacts ElementTypes SpecElementTypes CommonFacts ElementTypesFacts.

Section Facts.
Context {cfg : Cfg}.
Local Ltac lens := rewrite ?app_length, ?le_bytes_length, ?be_bytes_length, ?ne_bytes_length; cbn [length].
Local Ltac wf := repeat first [ assumption | apply le_bytes_wf | apply be_bytes_wf | apply ne_bytes_wf
  | apply wf_bytes_nil | apply wf_bytes_app; split | apply wf_bytes_cons; split ].

(** ** SSID *)
Lemma ssid_new_spec s x : ssid_new s = Some x <-> x = s /\ length s <= 32.
Proof. unfold ssid_new. destruct (Nat.leb_spec (length s) 32); intuition (try congruence; try lia). Qed.
Lemma rd_str_spec n bs x k : rd_str n bs = Ok (x, k) <-> n <= length bs /\ x = firstn n bs /\ k = n /\ is_utf8 x.
Proof.
  unfold rd_str. destruct (Nat.ltb_spec (length bs) n) as [H|H].
  - split; [discriminate|]. intros (? & _). lia.
  - destruct (utf8_valid (firstn n bs)) eqn:V.
    + split.
      * intros [= <- <-]. repeat split; auto. now apply utf8_spec.
      * intros (_ & -> & -> & _). reflexivity.
    + split; [discriminate|]. intros (_ & -> & _ & U). apply utf8_spec in U. congruence.
Qed.
Lemma rd_str_NP n : NoPanic (rd_str n).
Proof. intros bs. unfold rd_str. destruct (_ <? _); [discriminate|]. destruct (utf8_valid _); discriminate. Qed.
Lemma rd_str_IB n : InBounds (rd_str n).
Proof. intros bs x k E. apply rd_str_spec in E as (? & _ & -> & _). lia. Qed.
Lemma rd_str_R s : is_utf8 s -> Reads (rd_str (length s)) s s.
Proof. intros U rest. apply rd_str_spec. rewrite app_length, firstn_app_exact by reflexivity. repeat split; auto; lia. Qed.
Lemma rd_ssid_spec bs x n : rd_ssid bs = Ok (x, n) <-> x = bs /\ n = length bs /\ length bs <= 32 /\ is_utf8 bs.
Proof.
  unfold rd_ssid. destruct (Nat.ltb_spec 32 (length bs)).
  - split; [discriminate|]. intros (_ & _ & ? & _). lia.
  - rewrite rd_str_spec, firstn_all. intuition (subst; auto).
Qed.
Lemma rd_ssid_NP : NoPanic rd_ssid.
Proof. intros bs. unfold rd_ssid. destruct (_ <? _); [discriminate|]. apply rd_str_NP. Qed.
Lemma ssid_round_trip t : t = SSIDElement \/ t = MeshIDElement -> RoundTrip t ok_ssid (fun s => s).
Proof.
  intros T s (W & L & U). exists s.
  assert (X : Writes (wr_ssid s) s /\ ReadsAll rd_ssid s s).
  { split; [apply pwrite0_W, wr_bytes_W|]. now apply rd_ssid_spec. }
  destruct X. destruct T as [->| ->]; auto.
Qed.

(** ** Rates *)
Lemma iter_u8 bs : Iterates rd_u8 bs bs.
Proof. induction bs as [|b bs IH]; econstructor; try reflexivity; cbn; [lia|exact IH]. Qed.
Lemma rates_collect_id bs : rates_collect bs = Ok bs.
Proof. apply iter_all_iterates; [|apply iter_u8]. intros f x n E. destruct f; inversion E; lia. Qed.
Lemma wr_rates_W l : wf_bytes l -> Writes (wseq (map wr_u8 l)) l.
Proof.
  intros W. eapply Writes_eq.
  - apply wseq_W with (bss := map (fun x => [x]) l). induction W; constructor; auto. now apply wr_u8_small.
  - clear. induction l; cbn; congruence.
Qed.
Lemma supported_rates_round_trip : RoundTrip SupportedRatesElement (ok_rates 8) (fun l => l).
Proof.
  intros l (W & L). exists l. cbn [SupportedRatesElement et_write et_measure et_read].
  split; [|split; [reflexivity|split; [exact W|]]].
  - unfold wr_supported_rates. rewrite firstn_all2 by exact L. now apply wr_rates_W.
  - unfold ReadsAll, rd_supported_rates. destruct (Nat.ltb_spec 8 (length l)); [lia|reflexivity].
Qed.
Lemma extended_rates_round_trip : RoundTrip ExtendedSupportedRatesElement (ok_rates 255) (fun l => l).
Proof.
  intros l (W & L). exists l. cbn [ExtendedSupportedRatesElement et_write et_measure et_read].
  split; [|split; [reflexivity|split; [exact W|]]].
  - now apply wr_rates_W.
  - unfold ReadsAll, rd_extended_supported_rates. destruct (Nat.ltb_spec 255 (length l)); [lia|reflexivity].
Qed.
Lemma supported_rates_new_spec l x : supported_rates_new l = Some x <-> x = l /\ length l <= 8.
Proof. unfold supported_rates_new. destruct (Nat.leb_spec (length l) 8); intuition (try congruence; try lia). Qed.
Lemma extended_rates_new_spec l x : extended_supported_rates_new l = Some x <-> x = l /\ length l <= 251.
Proof. unfold extended_supported_rates_new. destruct (Nat.leb_spec (length l) 251); intuition (try congruence; try lia). Qed.
Lemma rd_supported_rates_NP : NoPanic rd_supported_rates.
Proof. intros bs. unfold rd_supported_rates. destruct (_ <? _); discriminate. Qed.
Lemma rd_extended_rates_NP : NoPanic rd_extended_supported_rates.
Proof. intros bs. unfold rd_extended_supported_rates. destruct (_ <? _); discriminate. Qed.
Lemma encoded_rate_bits r b : (r < 128)%N ->
  lsetb EncodedRate_layout "is_b" b (bf_set 0 7 r 0) = (r + 128 * N.b2n b)%N.
Proof.
  intros H.
  assert (S : forallb (fun r => forallb (fun b => (lsetb EncodedRate_layout "is_b" b (bf_set 0 7 r 0) =? r + 128 * N.b2n b)%N) [true; false])
                (map N.of_nat (seq 0 128)) = true) by (vm_compute; reflexivity).
  rewrite forallb_forall in S. specialize (S r). rewrite forallb_forall in S.
  apply N.eqb_eq, S; [|destruct b; cbn; auto].
  apply in_map_iff. exists (N.to_nat r). split; [lia|]. apply in_seq. lia.
Qed.
(** Every multiple of 500 kbps below 64 Mbps has an encoding: the number in the seven low bits,
    the flag in the top bit. *)
Lemma rate_round_trip (k : N) b : (k < 128)%N -> exists r,
  from_rate_in_kbps (k * 500) b = Ok r /\ r = (k + 128 * N.b2n b)%N /\ rate_in_kbps r = (k * 500)%N /\
  lgetb EncodedRate_layout "is_b" r = b.
Proof.
  intros H. exists (k + 128 * N.b2n b)%N. unfold from_rate_in_kbps.
  rewrite N.div_mul by discriminate. rewrite N.mod_small by lia.
  unfold lwith. change (lpos EncodedRate_layout "rate") with (Some (0, 7)%N). cbv beta iota.
  change (N.ones 7) with 127%N. destruct (N.ltb_spec 127 k); [lia|]. rewrite andb_false_r. cbn [rbind].
  rewrite encoded_rate_bits by exact H. repeat split.
  - unfold rate_in_kbps. f_equal.
    assert (S : forallb (fun r => forallb (fun b => (lget EncodedRate_layout "rate" (r + 128 * N.b2n b) =? r)%N) [true; false])
                (map N.of_nat (seq 0 128)) = true) by (vm_compute; reflexivity).
    rewrite forallb_forall in S. specialize (S k). rewrite forallb_forall in S.
    apply N.eqb_eq, S; [|destruct b; cbn; auto].
    apply in_map_iff. exists (N.to_nat k). split; [lia|]. apply in_seq. lia.
  - assert (S : forallb (fun r => forallb (fun b => Bool.eqb (lgetb EncodedRate_layout "is_b" (r + 128 * N.b2n b)) b) [true; false])
                (map N.of_nat (seq 0 128)) = true) by (vm_compute; reflexivity).
    rewrite forallb_forall in S. specialize (S k). rewrite forallb_forall in S.
    apply eqb_prop, S; [|destruct b; cbn; auto].
    apply in_map_iff. exists (N.to_nat k). split; [lia|]. apply in_seq. lia.
Qed.

(** ** HT operation *)
Lemma ht_op_reads x : ok_ht_op x -> Reads rd_ht_op (enc_ht_op x) x.
Proof.
  destruct x as [a b c]. intros (Ha & Hb & Hc) rest. projs. unfold enc_ht_op, rd_ht_op. projs.
  pose proof (rd_mcs_set_R c Hc) as Rm. pose proof (enc_mcs_set_length c Hc) as Lm.
  pose proof (At_start (([a] ++ le_bytes 5 b ++ enc_mcs_set c) ++ rest)) as A. rewrite <- !app_assoc in *.
  rstep A. rstep A. rewrite (gread_step rd_mcs_set _ _ _ _ _ A Rm) by (intros X; rewrite X in Lm; discriminate). cbn [rbind].
  rewrite le_val_bytes_small by exact Hb. do 2 f_equal; lens; lia.
Qed.
(** what is really written: the first five of the eight big-endian bytes *)
Lemma wr_ht_op_W x : ok_ht_op x ->
  Writes (wr_ht_op x) ([ho_channel x] ++ firstn 5 (be_bytes 8 (ho_info x)) ++ enc_mcs_set (ho_mcs x)).
Proof.
  intros (Ha & Hb & Hc). eapply Writes_eq.
  { apply wseq_W. constructor; [now apply wr_u8_small|]. constructor; [apply wr_bytes_W|].
    constructor; [now apply wr_mcs_set_W|]. constructor. }
  cbn [concat]. now rewrite app_nil_r.
Qed.
Lemma rd_ht_op_NP : NoPanic rd_ht_op.
Proof. intros from. unfold rd_ht_op. pose proof rd_mcs_set_NP. np. Qed.
Lemma ht_op_info_bytes v : (v < 2 ^ 40)%N ->
  firstn 5 (be_bytes 8 v) = [0; 0; 0; v / 2 ^ 32; v / 2 ^ 24 mod 256]%N.
Proof.
  intros H. unfold be_bytes. cbn [le_bytes rev app firstn]. rewrite !N.div_div by discriminate.
  change (2 ^ 32)%N with (256 * (256 * (256 * 256)))%N. change (2 ^ 24)%N with (256 * (256 * 256))%N.
  rewrite (N.div_small v (256 * (256 * (256 * (256 * 256))))) by exact H.
  rewrite (N.div_small v (256 * (256 * (256 * (256 * (256 * 256)))))) by (eapply N.lt_trans; [exact H|reflexivity]).
  rewrite (N.div_small v (256 * (256 * (256 * (256 * (256 * (256 * 256))))))) by (eapply N.lt_trans; [exact H|reflexivity]).
  rewrite (N.mod_small (v / (256 * (256 * (256 * 256))))); [reflexivity|]. apply N.div_lt_upper_bound; [discriminate|exact H].
Qed.
(** exactly which operation information survives *)
Lemma ht_op_written_read x : ok_ht_op x -> forall buf, 22 + slack <= length buf -> exists buf',
  wr_ht_op x buf = Ok (buf', 22) /\
  rd_ht_op buf' = Ok (mkHTOp (ho_channel x) (le_val (firstn 5 (be_bytes 8 (ho_info x)))) (ho_mcs x), 22).
Proof.
  intros O buf L. pose proof (wr_ht_op_W x O) as W. pose proof (enc_mcs_set_length _ (proj2 (proj2 O))) as Lm.
  assert (Lb : length ([ho_channel x] ++ firstn 5 (be_bytes 8 (ho_info x)) ++ enc_mcs_set (ho_mcs x)) = 22)
    by (lens; rewrite firstn_length; lens; lia).
  eexists. split.
  { rewrite (writes_ok _ _ W) by lia. rewrite Lb. reflexivity. }
  set (info := le_val (firstn 5 (be_bytes 8 (ho_info x)))).
  assert (E : firstn 5 (be_bytes 8 (ho_info x)) = le_bytes 5 info).
  { unfold info. rewrite <- (le_bytes_val (firstn 5 _)) at 1 by (apply wf_firstn, be_bytes_wf).
    now replace (length (firstn 5 (be_bytes 8 (ho_info x)))) with 5 by (rewrite firstn_length, be_bytes_length; reflexivity). }
  rewrite E. pose proof (ht_op_reads (mkHTOp (ho_channel x) info (ho_mcs x))) as R. unfold Reads, enc_ht_op in R. projs.
  rewrite R; [|destruct O as (Oa & Ob & Oc); repeat split; auto].
  - do 2 f_equal. rewrite <- E. exact Lb.
  - change (2 ^ 40)%N with (256 ^ N.of_nat 5)%N. projs. unfold info.
    replace 5 with (length (firstn 5 (be_bytes 8 (ho_info x)))) at 2 by (rewrite firstn_length, be_bytes_length; reflexivity).
    apply le_val_bound, wf_firstn, be_bytes_wf.
  - apply Oc.
  - apply Oc.
  - apply Oc.
Qed.
(** an element without its last two bytes is accepted and reported two bytes longer than it is *)
Lemma ht_op_short : rd_ht_op (repeat 0%N 20) = Ok (mkHTOp 0 0 (mkMCS (repeat 0%N 10) 0), 22).
Proof. unfold rd_ht_op, rd_mcs_set, gread, end_bad. destruct strict_end; reflexivity. Qed.

(** ** HT MCS set *)
Lemma nth_set_bit_at bs i b k : nth k (set_bit_at bs i b) 0%N =
  if (k =? i / 8) && (k <? length bs)
  then (if b then N.setbit (nth k bs 0%N) (N.of_nat (i mod 8)) else N.clearbit (nth k bs 0%N) (N.of_nat (i mod 8)))
  else nth k bs 0%N.
Proof.
  revert i k. induction bs as [|x bs IH]; intros i k; cbn [set_bit_at].
  - destruct k; cbn; now rewrite andb_false_r.
  - destruct (Nat.ltb_spec i 8) as [H|H].
    + rewrite (Nat.div_small i 8), (Nat.mod_small i 8) by exact H. destruct k; reflexivity.
    + assert (E : i / 8 = S ((i - 8) / 8)) by (replace i with (1 * 8 + (i - 8)) at 1 by lia; rewrite Nat.div_add_l by lia; reflexivity).
      assert (M : i mod 8 = (i - 8) mod 8).
      { replace i with ((i - 8) + 1 * 8) at 1 by lia. now rewrite Nat.mod_add by lia. }
      destruct k as [|k]; cbn [nth length].
      * rewrite E. reflexivity.
      * rewrite IH, E, M. reflexivity.
Qed.
Lemma set_bit_at_length bs i b : length (set_bit_at bs i b) = length bs.
Proof. revert i. induction bs as [|x bs IH]; intros i; cbn [set_bit_at]; [reflexivity|]. destruct (i <? 8); cbn [length]; auto. Qed.
Lemma rx_bit_set bs i b k : i / 8 < length bs ->
  rx_bit (set_bit_at bs i b) k = if k =? i then b else rx_bit bs k.
Proof.
  intros L. unfold rx_bit. rewrite nth_set_bit_at.
  destruct (Nat.eqb_spec k i) as [->|N].
  - rewrite Nat.eqb_refl. destruct (Nat.ltb_spec (i / 8) (length bs)); [|lia]. cbn [andb].
    destruct b; [apply N.setbit_eq|apply N.clearbit_eq].
  - destruct (Nat.eqb_spec (k / 8) (i / 8)) as [E|E]; [|reflexivity].
    destruct (Nat.ltb_spec (k / 8) (length bs)); [|lia]. cbn [andb].
    assert (M : k mod 8 <> i mod 8).
    { intros M. apply N. rewrite (Nat.div_mod k 8), (Nat.div_mod i 8) by lia. now rewrite E, M. }
    destruct b; [rewrite N.setbit_neq|rewrite N.clearbit_neq]; try lia; reflexivity.
Qed.
Lemma set_bits_from_length l : forall i bs, length (set_bits_from i l bs) = length bs.
Proof. induction l as [|b l IH]; intros; cbn; [reflexivity|]. rewrite IH. apply set_bit_at_length. Qed.
Lemma rx_bit_set_bits l : forall i bs k, i + length l <= 8 * length bs ->
  rx_bit (set_bits_from i l bs) k = if (i <=? k) && (k <? i + length l) then nth (k - i) l false else rx_bit bs k.
Proof.
  induction l as [|b l IH]; intros i bs k L; cbn [set_bits_from length] in *.
  - destruct (Nat.leb_spec i k), (Nat.ltb_spec k (i + 0)); try lia; reflexivity.
  - rewrite IH by (rewrite set_bit_at_length; lia). rewrite rx_bit_set by (apply Nat.div_lt_upper_bound; lia).
    destruct (Nat.leb_spec (S i) k), (Nat.ltb_spec k (S i + length l)), (Nat.leb_spec i k), (Nat.ltb_spec k (i + S (length l)));
      cbn [andb]; try lia; destruct (Nat.eqb_spec k i); subst; try lia; try reflexivity.
    + replace (k - i) with (S (k - S i)) by lia. reflexivity.
    + now rewrite Nat.sub_diag.
Qed.
Lemma rx_bit_zero n k : rx_bit (repeat 0%N n) k = false.
Proof.
  unfold rx_bit. assert (E : nth (k / 8) (repeat 0%N n) 0%N = 0%N).
  { generalize (k / 8). induction n as [|n IH]; intros [|j]; cbn [repeat nth]; auto. }
  rewrite E. apply N.bits_0.
Qed.
Lemma firstn_nth {A} (l : list A) n k d : k < n -> nth k (firstn n l) d = nth k l d.
Proof. revert n k. induction l; destruct n, k; cbn; intros; auto; try lia. apply IHl. lia. Qed.
(** the mask contains exactly the first 76 given flags *)
Lemma generate_rx_bit l k : rx_bit (generate_supported_rx_mcs_set l) k = (k <? 76) && nth k l false.
Proof.
  unfold generate_supported_rx_mcs_set. rewrite rx_bit_set_bits by (rewrite repeat_length, firstn_length; lia).
  rewrite rx_bit_zero, firstn_length. rewrite Nat.sub_0_r. cbn [Nat.leb andb Nat.add].
  destruct (Nat.ltb_spec k (Nat.min 76 (length l))), (Nat.ltb_spec k 76); try lia; cbn [andb].
  - apply firstn_nth. exact H0.
  - symmetry. apply nth_overflow. lia.
Qed.
Lemma generate_length l : length (generate_supported_rx_mcs_set l) = 10.
Proof. unfold generate_supported_rx_mcs_set. now rewrite set_bits_from_length, repeat_length. Qed.
(** the listing form: accepts exactly duplicate free lists of indices below 77 *)
Lemma rx_mcs_listing_spec l : forall buf, length buf = 10 ->
  (Forall (fun i => i < 77 /\ rx_bit buf i = false) l /\ NoDup l ->
     exists r, rx_mcs_listing l buf = Ok r /\ length r = 10 /\ forall k, rx_bit r k = rx_bit buf k || existsb (Nat.eqb k) l) /\
  (~ (Forall (fun i => i < 77 /\ rx_bit buf i = false) l /\ NoDup l) -> rx_mcs_listing l buf = Panic).
Proof.
  induction l as [|i l IH]; intros buf L; cbn [rx_mcs_listing].
  - split; [|intros H; exfalso; apply H; split; constructor].
    intros _. exists buf. repeat split; auto. intros k. cbn. now rewrite orb_false_r.
  - fold (rx_bit buf i). destruct (Nat.leb_spec 77 i) as [Hi|Hi].
    { split; [|reflexivity]. intros (F & _). inversion F; subst. lia. }
    destruct (rx_bit buf i) eqn:B.
    { split; [|reflexivity]. intros (F & _). inversion F; subst. destruct H1. congruence. }
    specialize (IH (set_bit_at buf i true)). rewrite set_bit_at_length in IH. specialize (IH L).
    assert (D : i / 8 < length buf) by (rewrite L; apply Nat.div_lt_upper_bound; lia).
    assert (EQ : Forall (fun j => j < 77 /\ rx_bit buf j = false) (i :: l) /\ NoDup (i :: l) <->
                 Forall (fun j => j < 77 /\ rx_bit (set_bit_at buf i true) j = false) l /\ NoDup l).
    { split.
      - intros (F & N). inversion F as [|? ? Fi Fl]; inversion N as [|? ? Ni Nl]; subst. split; auto.
        rewrite Forall_forall in *. intros j Hj. destruct (Fl j Hj). split; auto. rewrite rx_bit_set by exact D.
        destruct (Nat.eqb_spec j i); [subst; contradiction|auto].
      - intros (F & N). rewrite Forall_forall in F. split.
        + constructor; auto. rewrite Forall_forall. intros j Hj. destruct (F j Hj) as [? R]. split; auto.
          rewrite rx_bit_set in R by exact D. destruct (Nat.eqb_spec j i); [discriminate|auto].
        + constructor; auto. intros Hi'. destruct (F i Hi') as [_ R]. rewrite rx_bit_set, Nat.eqb_refl in R by exact D. discriminate. }
    rewrite EQ. split; [|apply IH].
    intros H. destruct (proj1 IH H) as (r & E & Lr & S). exists r. repeat split; auto. intros k. rewrite S.
    rewrite rx_bit_set by exact D. cbn [existsb]. destruct (Nat.eqb_spec k i); [subst; rewrite B; reflexivity|reflexivity].
Qed.
Lemma listing_ok l : Forall (fun i => i < 77) l -> NoDup l -> exists r,
  supported_rx_mcs_set_listing l = Ok r /\ length r = 10 /\ forall k, rx_bit r k = true <-> In k l.
Proof.
  intros F N. destruct (rx_mcs_listing_spec l (repeat 0%N 10) eq_refl) as [H _].
  destruct H as (r & E & L & S).
  { split; auto. rewrite Forall_forall in *. intros i Hi. split; auto. apply rx_bit_zero. }
  exists r. repeat split; auto; rewrite S, rx_bit_zero; cbn [orb]; rewrite existsb_exists.
  - intros (x & Hx & E'). apply Nat.eqb_eq in E'. now subst.
  - intros Hk. exists k. split; auto. apply Nat.eqb_refl.
Qed.
Lemma listing_panic l : ~ (Forall (fun i => i < 77) l /\ NoDup l) -> supported_rx_mcs_set_listing l = Panic.
Proof.
  intros H. apply (rx_mcs_listing_spec l (repeat 0%N 10) eq_refl). intros (F & N). apply H. split; auto.
  rewrite Forall_forall in *. intros i Hi. now apply F.
Qed.
Lemma fold_set_bits l : forall buf, (forall i, In i l -> i / 8 < length buf) ->
  length (fold_left (fun buf i => set_bit_at buf i true) l buf) = length buf /\
  forall k, rx_bit (fold_left (fun buf i => set_bit_at buf i true) l buf) k = rx_bit buf k || existsb (Nat.eqb k) l.
Proof.
  induction l as [|i l IH]; intros buf H; cbn [fold_left].
  - split; auto. intros k. cbn. now rewrite orb_false_r.
  - destruct (IH (set_bit_at buf i true)) as [L S].
    { intros j Hj. rewrite set_bit_at_length. apply H. now right. }
    rewrite set_bit_at_length in L. split; auto. intros k. rewrite S, rx_bit_set by (apply H; now left).
    cbn [existsb]. destruct (Nat.eqb_spec k i); [now rewrite orb_true_r|reflexivity].
Qed.
Lemma range_ok s e : e < 77 -> exists r,
  supported_rx_mcs_set_range s e = Ok r /\ length r = 10 /\ forall k, rx_bit r k = true <-> s <= k < e.
Proof.
  intros He. unfold supported_rx_mcs_set_range. destruct (Nat.leb_spec 77 e); [lia|].
  destruct (fold_set_bits (seq s (e - s)) (repeat 0%N 10)) as [L S].
  { intros i Hi. apply in_seq in Hi. rewrite repeat_length. apply Nat.div_lt_upper_bound; lia. }
  eexists. split; [reflexivity|]. split; [exact L|]. intros k. rewrite S, rx_bit_zero. cbn [orb]. rewrite existsb_exists. split.
  - intros (x & Hx & E). apply Nat.eqb_eq in E. apply in_seq in Hx. lia.
  - intros Hk. exists k. split; [apply in_seq; lia|apply Nat.eqb_refl].
Qed.
(** the flags reported for a received mask *)
Lemma rx_indices_length bs f : length (supported_rx_mcs_indices (mkMCS bs f)) = 8 * length bs.
Proof. unfold supported_rx_mcs_indices. cbn [mcs_rx]. induction bs as [|b bs IH]; [reflexivity|]. cbn [flat_map]. rewrite app_length, IH. cbn [map seq length]. lia. Qed.
Lemma rx_indices_nth bs f k : nth k (supported_rx_mcs_indices (mkMCS bs f)) false = rx_bit bs k.
Proof.
  unfold supported_rx_mcs_indices, rx_bit. cbn [mcs_rx]. revert k. induction bs as [|b bs IH]; intros k.
  - cbn [flat_map]. rewrite !nth_overflow by (cbn [length]; lia). now rewrite N.bits_0.
  - cbn [flat_map]. destruct (Nat.lt_ge_cases k 8) as [H|H].
    + rewrite app_nth1 by (rewrite map_length, seq_length; lia). rewrite (Nat.div_small k 8), (Nat.mod_small k 8) by exact H.
      do 8 (destruct k as [|k]; [reflexivity|]). lia.
    + rewrite app_nth2 by (rewrite map_length, seq_length; lia). rewrite map_length, seq_length, IH.
      assert (E : k / 8 = S ((k - 8) / 8)) by (replace k with (1 * 8 + (k - 8)) at 1 by lia; rewrite Nat.div_add_l by lia; reflexivity).
      assert (M : k mod 8 = (k - 8) mod 8) by (replace k with ((k - 8) + 1 * 8) at 1 by lia; now rewrite Nat.mod_add by lia).
      now rewrite E, M.
Qed.

(** ** VHT MCS map *)
Lemma vht_for_nss m n : 1 <= n <= 8 ->
  exists x, vht_mcs_support_for_nss m (N.of_nat n) = Some x /\ x = vht_mcs_from_bits (spec_vht_mcs m n).
Proof.
  intros H. unfold vht_mcs_support_for_nss. destruct (N.leb_spec 1 (N.of_nat n)); [|lia]. destruct (N.ltb_spec (N.of_nat n) 9); [|lia].
  cbn [andb]. eexists. split; [reflexivity|]. unfold spec_vht_mcs. f_equal.
  change 3%N with (N.ones 2). rewrite N.land_ones, N.shiftr_div_pow2. change (2 ^ 2)%N with 4%N. do 2 f_equal.
  rewrite N.mul_comm. rewrite N.pow_mul_r. change (2 ^ 2)%N with 4%N. f_equal. lia.
Qed.
Lemma vht_for_nss_none m n : ~ (1 <= n <= 8)%N -> vht_mcs_support_for_nss m n = None.
Proof. intros H. unfold vht_mcs_support_for_nss. destruct (N.leb_spec 1 n), (N.ltb_spec n 9); cbn; try reflexivity; lia. Qed.
Lemma vht_iter m : vht_mcs_support_iter m = map (fun n => vht_mcs_from_bits (spec_vht_mcs m n)) (seq 1 8).
Proof.
  unfold vht_mcs_support_iter. cbn [seq map].
  assert (E : forall n, 1 <= n <= 8 -> forall k, k = N.of_nat n -> match vht_mcs_support_for_nss m k with Some x => [x] | None => [] end = [vht_mcs_from_bits (spec_vht_mcs m n)]).
  { intros n Hn k ->. destruct (vht_for_nss m n Hn) as (x & -> & ->). reflexivity. }
  cbn [flat_map].
  rewrite (E 1), (E 2), (E 3), (E 4), (E 5), (E 6), (E 7), (E 8) by (lia || reflexivity). reflexivity.
Qed.
(** canonical support values *)
End Facts.
