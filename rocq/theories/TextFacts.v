(** Proofs about text output. *)
From Verif Require Import Base BaseFacts Bits Layouts BitsFacts Common Enums ElementTypes SpecElementTypes ElementTypesFacts2 Tim SpecTim TimFacts TimFacts2 Text SpecText.
Local Open Scope N_scope.

(** ** Numbers *)
Lemma digit_value_digit d : d < 16 -> digit_value (digit d) = Some d.
Proof.
  intros L. assert (X : forallb (fun d => match digit_value (digit d) with Some x => x =? d | None => false end) (map N.of_nat (seq 0 16)) = true) by reflexivity.
  rewrite forallb_forall in X. specialize (X d). assert (I : In d (map N.of_nat (seq 0 16))).
  { rewrite <- (N2Nat.id d). apply in_map, in_seq. lia. }
  apply X in I. destruct (digit_value (digit d)); [|discriminate]. apply N.eqb_eq in I. now subst.
Qed.
Lemma digit_value_inv c d : digit_value c = Some d -> d < 16 /\ c = digit d.
Proof.
  unfold digit_value, digit. destruct ((48 <=? c) && (c <=? 57)) eqn:A.
  - intros [= <-]. apply andb_prop in A as [A B]. apply N.leb_le in A, B. destruct (N.ltb_spec (c - 48) 10); lia.
  - destruct ((97 <=? c) && (c <=? 102)) eqn:B; [|discriminate]. intros [= <-]. apply andb_prop in B as [B C]. apply N.leb_le in B, C.
    destruct (N.ltb_spec (c - 87) 10); lia.
Qed.
Lemma digits_value_app base t u : forall acc,
  digits_value base (t ++ u) acc = match digits_value base t acc with Some v => digits_value base u v | None => None end.
Proof.
  induction t as [|c t IH]; intros acc; [reflexivity|]. cbn [app digits_value]. destruct (digit_value c); [|reflexivity].
  destruct (_ <? _); [apply IH|reflexivity].
Qed.
Lemma digits_value_ge base t : 2 <= base -> forall acc v, digits_value base t acc = Some v -> acc <= v.
Proof.
  intros B. induction t as [|c t IH]; intros acc v H; cbn [digits_value] in H; [injection H; lia|].
  destruct (digit_value c) as [d|]; [|discriminate]. destruct (N.ltb_spec d base); [|discriminate]. apply IH in H. nia.
Qed.
Section Base.
Context (base : N) (B2 : 2 <= base) (B16 : base <= 16).
Lemma fmt_digits_value f : forall n, n < 2 ^ N.of_nat f ->
  fmt_digits (S f) base n <> [] /\ digits_value base (fmt_digits (S f) base n) 0 = Some n /\ (n <> 0 -> hd 0 (fmt_digits (S f) base n) <> 48).
Proof.
  induction f as [|f IH]; intros n L.
  - change (2 ^ N.of_nat 0) with 1 in L. assert (n = 0) as -> by lia. cbn [fmt_digits]. destruct (N.ltb_spec 0 base); [|lia].
    split; [discriminate|]. split; [|congruence]. cbn. destruct (N.ltb_spec 0 base); [|lia]. f_equal. lia.
  - remember (S f) as g. cbn [fmt_digits]. destruct (N.ltb_spec n base) as [Sm|Sm].
    + split; [discriminate|]. split.
      * cbn [digits_value]. rewrite digit_value_digit by lia. destruct (N.ltb_spec n base); [|lia]. f_equal. lia.
      * intros NZ. cbn [hd]. unfold digit. destruct (n <? 10) eqn:T; [|apply N.ltb_ge in T]; lia.
    + assert (Q : n / base < 2 ^ N.of_nat f).
      { subst g. replace (N.of_nat (S f)) with (N.succ (N.of_nat f)) in L by lia. rewrite N.pow_succ_r in L by lia.
        apply N.div_lt_upper_bound; [lia|]. nia. }
      destruct (IH _ Q) as (NE & V & H). split; [intros X; apply app_eq_nil in X; now destruct X|]. split.
      * rewrite digits_value_app, V. cbn [digits_value]. assert (n mod base < base) by (apply N.mod_lt; lia).
        rewrite digit_value_digit by lia. destruct (N.ltb_spec (n mod base) base); [|lia]. f_equal. symmetry. apply N.div_mod. lia.
      * intros _. destruct (fmt_digits g base (n / base)) as [|c t]; [congruence|]. cbn [app hd] in *. apply H.
        assert (1 <= n / base); [|lia]. apply N.div_le_lower_bound; lia.
Qed.
Lemma size_bound n : n < 2 ^ N.of_nat (N.size_nat n).
Proof.
  destruct n as [|p]; [reflexivity|]. cbn [N.size_nat].
  induction p as [p IH|p IH|]; cbn [Pos.size_nat]; [| |reflexivity];
    replace (N.of_nat (S (Pos.size_nat p))) with (N.succ (N.of_nat (Pos.size_nat p))) by lia; rewrite N.pow_succ_r by lia; lia.
Qed.
Lemma fmt_int_numeral n : numeral base (fmt_int base n) n.
Proof.
  destruct (fmt_digits_value (N.size_nat n) n (size_bound n)) as (NE & V & H). split; [exact NE|]. split; [exact V|].
  intros Z. unfold fmt_int in *. destruct (N.eq_dec n 0) as [->|NZ].
  - unfold fmt_int. cbn [N.size_nat fmt_digits]. destruct (N.ltb_spec 0 base); [reflexivity|lia].
  - now specialize (H NZ).
Qed.
(** there is only one numeral *)
Lemma digits_unique t : forall f n, t <> [] -> digits_value base t 0 = Some n -> (hd 0 t = 48 -> t = [48]) -> n < 2 ^ N.of_nat f -> fmt_digits (S f) base n = t.
Proof.
  induction t as [|c s IH] using rev_ind; intros f n NE V H L; [congruence|]. rewrite digits_value_app in V.
  destruct (digits_value base s 0) as [v|] eqn:V'; [|discriminate]. cbn [digits_value] in V.
  destruct (digit_value c) as [d|] eqn:D; [|discriminate]. destruct (N.ltb_spec d base) as [Ld|]; [|discriminate]. injection V as V.
  apply digit_value_inv in D as [_ ->]. destruct s as [|e s].
  - cbn in V'. injection V' as <-. replace n with d by lia. cbn [fmt_digits app]. destruct (N.ltb_spec d base); [reflexivity|lia].
  - assert (P : v <> 0).
    { intros ->. cbn [digits_value] in V'. destruct (digit_value e) as [x|] eqn:E; [|discriminate].
      destruct (x <? base); [|discriminate]. apply digits_value_ge in V'; [|exact B2]. assert (x = 0) as -> by lia.
      apply digit_value_inv in E as [_ ->]. specialize (H eq_refl). injection H as H. destruct s; discriminate. }
    assert (G : base <= n) by nia. destruct f as [|f]; [change (2 ^ N.of_nat 0) with 1 in L; lia|].
    remember (S f) as g. cbn [fmt_digits]. destruct (N.ltb_spec n base) as [Sm|_]; [lia|]. subst g.
    assert (E1 : n / base = v) by (symmetry; apply (N.div_unique n base v d); lia).
    assert (E2 : n mod base = d) by (symmetry; apply (N.mod_unique n base v d); lia). rewrite E1, E2.
    f_equal. apply IH; [discriminate|reflexivity| |].
    + cbn [hd app] in *. intros Z. specialize (H Z). injection H as -> H. destruct s; discriminate.
    + replace (N.of_nat (S f)) with (N.succ (N.of_nat f)) in L by lia. rewrite N.pow_succ_r in L by lia. nia.
Qed.
Lemma numeral_unique t n : numeral base t n -> t = fmt_int base n.
Proof. intros (NE & V & H). symmetry. apply digits_unique; auto. apply size_bound. Qed.
Lemma numeral_value t n m : numeral base t n -> numeral base t m -> n = m.
Proof. intros (_ & V & _) (_ & V' & _). congruence. Qed.
Lemma fmt_int_inj n m : fmt_int base n = fmt_int base m -> n = m.
Proof. intros E. apply (numeral_value (fmt_int base n)); [apply fmt_int_numeral|rewrite E; apply fmt_int_numeral]. Qed.
(** the characters *)
Definition is_digit (c : N) : Prop := digit_value c <> None.
Lemma digits_value_chars t : forall acc v, digits_value base t acc = Some v -> Forall is_digit t.
Proof.
  induction t as [|c t IH]; intros acc v H; [constructor|]. cbn [digits_value] in H. destruct (digit_value c) as [d|] eqn:D; [|discriminate].
  destruct (d <? base); [|discriminate]. constructor; [unfold is_digit; congruence|]. eapply IH, H.
Qed.
Lemma numeral_chars t n : numeral base t n -> Forall is_digit t.
Proof. intros (_ & V & _). eapply digits_value_chars, V. Qed.
End Base.
Lemma fmt_dec_numeral n : numeral 10 (fmt_dec n) n.
Proof. apply fmt_int_numeral; lia. Qed.
Lemma fmt_dec_inj n m : fmt_dec n = fmt_dec m -> n = m.
Proof. apply fmt_int_inj; lia. Qed.
Lemma fmt_dec_chars n : Forall is_digit (fmt_dec n).
Proof. apply (numeral_chars 10 _ n), fmt_dec_numeral. Qed.
Lemma fmt_dec_nonempty n : fmt_dec n <> [].
Proof. apply fmt_dec_numeral. Qed.

(** ** Texts put together *)
(** digits end where a character that is none follows *)
Lemma prefix_end {A} (P : A -> Prop) x y u v : Forall P x -> Forall P y ->
  (forall c r, u = c :: r -> ~ P c) -> (forall c r, v = c :: r -> ~ P c) -> x ++ u = y ++ v -> x = y /\ u = v.
Proof.
  intros X. revert y. induction X as [|a x Pa X IH]; intros y Y U V E.
  - destruct Y as [|b y Pb Y]; [now split|]. cbn [app] in E. now apply U in E.
  - destruct Y as [|b y Pb Y]; cbn [app] in E.
    + symmetry in E. now apply V in E.
    + injection E as <- E. destruct (IH y Y U V E) as [-> ->]. now split.
Qed.
Definition no_comma (t : bytes) : Prop := Forall (fun c => c <> 44) t.
Lemma digits_no_comma t : Forall is_digit t -> no_comma t.
Proof. intros H. eapply Forall_impl; [|exact H]. intros c D ->. now apply D. Qed.
Lemma join_inj l : forall m, Forall (fun t => t <> []) l -> Forall (fun t => t <> []) m -> Forall no_comma l -> Forall no_comma m ->
  join (str ", ") l = join (str ", ") m -> l = m.
Proof.
  assert (C : forall (r : bytes) c r', str ", " ++ r = c :: r' -> ~ (c <> 44)) by (intros r c r' [= <- _] H; now apply H).
  assert (Z : forall c (r : bytes), [] = c :: r -> ~ (c <> 44)) by discriminate.
  induction l as [|x l IH]; intros m Nl Nm Fl Fm E.
  - destruct m as [|y m]; [reflexivity|]. inversion Nm. destruct m; cbn [join] in E; [congruence|]. symmetry in E. apply app_eq_nil in E. now destruct E.
  - inversion Nl as [|? ? Nx Nl' ]; inversion Fl as [|? ? Fx Fl']; subst. destruct m as [|y m].
    + destruct l; cbn [join] in E; [congruence|]. apply app_eq_nil in E. now destruct E.
    + inversion Nm as [|? ? Ny Nm' ]; inversion Fm as [|? ? Fy Fm']; subst. destruct l as [|x' l], m as [|y' m]; cbn [join] in E.
      * congruence.
      * exfalso. rewrite <- (app_nil_r x) in E. apply (prefix_end (fun c => c <> 44)) in E; auto; [destruct E; discriminate|apply C].
      * exfalso. rewrite <- (app_nil_r y) in E. apply (prefix_end (fun c => c <> 44)) in E; auto; [destruct E; discriminate|apply C].
      * apply (prefix_end (fun c => c <> 44)) in E; auto; try apply C. destruct E as [-> E]. f_equal. apply IH; auto.
        apply app_inv_head in E. exact E.
Qed.
Lemma join_concat sep x l : join sep (x :: l) = x ++ concat (map (fun y => sep ++ y) l).
Proof.
  revert x. induction l as [|y l IH]; intros x; [cbn; now rewrite app_nil_r|].
  change (join sep (x :: y :: l)) with (x ++ sep ++ join sep (y :: l)). rewrite IH. cbn [map concat]. now rewrite <- app_assoc.
Qed.
Lemma fmt_list_inj l m : Forall (fun t => t <> []) l -> Forall (fun t => t <> []) m -> Forall no_comma l -> Forall no_comma m ->
  fmt_list l = fmt_list m -> l = m.
Proof.
  intros Nl Nm Fl Fm E. unfold fmt_list in E. apply app_inv_head in E. apply app_inv_tail in E. now apply join_inj.
Qed.
Lemma number_list_fmt t l : number_list t l <-> t = fmt_list (map fmt_dec l).
Proof.
  assert (X : forall ts : list bytes, str "[" ++ match ts with [] => [] | x :: ts' => x ++ concat (map (fun y => str ", " ++ y) ts') end ++ str "]" = fmt_list ts).
  { intros [|x ts]; [reflexivity|]. unfold fmt_list. now rewrite join_concat. }
  split.
  - intros (ts & F & ->). rewrite X. f_equal. induction F as [|t n ts l H F IH]; [reflexivity|]. cbn [map]. rewrite IH. f_equal.
    apply numeral_unique; [lia|lia|exact H].
  - intros ->. exists (map fmt_dec l). rewrite X. split; [|reflexivity]. induction l; constructor; [apply fmt_dec_numeral|assumption].
Qed.
Lemma dec_lists_ok l : Forall (fun t => t <> []) (map fmt_dec l) /\ Forall no_comma (map fmt_dec l).
Proof. split; apply Forall_map, Forall_forall; intros n _; [apply fmt_dec_nonempty|apply digits_no_comma, fmt_dec_chars]. Qed.
Lemma map_inj {A B} (f : A -> B) : (forall x y, f x = f y -> x = y) -> forall l m, map f l = map f m -> l = m.
Proof. intros I. induction l as [|x l IH]; intros [|y m] E; try discriminate; [reflexivity|]. injection E as E1 E2. f_equal; auto. Qed.
Lemma number_list_unique t l l' : number_list t l -> number_list t l' -> l = l'.
Proof.
  rewrite !number_list_fmt. intros -> E. destruct (dec_lists_ok l), (dec_lists_ok l'). apply fmt_list_inj in E; auto.
  revert E. apply map_inj, fmt_dec_inj.
Qed.

(** ** The implementations *)
Lemma aid_text a : numeral 10 (aid_debug a) (aid_aid a).
Proof. apply fmt_dec_numeral. Qed.
Lemma numeral_one base t u n : 2 <= base <= 16 -> numeral base t n -> numeral base u n -> t = u.
Proof. intros B T U. apply numeral_unique in T, U; try lia. congruence. Qed.

Lemma pmkid_text x : exists h, pmkid_display x = repeat 32 (16 - length h)%nat ++ h /\ pmkid_defmt x = h /\ numeral 16 h (be_val x).
Proof. eexists. split; [reflexivity|]. split; [reflexivity|]. apply fmt_int_numeral; lia. Qed.
Lemma pmkid_inj x y : wf_bytes x -> wf_bytes y -> length x = length y -> pmkid_display x = pmkid_display y -> x = y.
Proof.
  intros Wx Wy L E. unfold pmkid_display, fmt_pad in E.
  assert (D : forall n, Forall is_digit (fmt_int 16 n)) by (intros n; apply (numeral_chars 16 _ n), fmt_int_numeral; lia).
  assert (S : forall n c r, fmt_int 16 n = c :: r -> ~ c = 32).
  { intros n c r H ->. specialize (D n). rewrite H in D. inversion D as [|? ? X _]. now apply X. }
  assert (R : forall k, Forall (fun c : N => c = 32) (repeat 32 k)) by (intros k; apply Forall_forall; intros c I; now apply repeat_spec in I).
  apply (prefix_end (fun c => c = 32)) in E; [|apply R|apply R|apply S|apply S]. destruct E as [_ E].
  apply fmt_int_inj in E; [|lia|lia]. unfold be_val in E.
  rewrite <- (rev_involutive x), <- (rev_involutive y). f_equal. rewrite <- (le_bytes_val (rev x)), <- (le_bytes_val (rev y)) by (now apply Forall_rev).
  now rewrite !rev_length, L, E.
Qed.
Lemma pmkid_short : exists x, wf_bytes x /\ length x = 16%nat /\ (length (pmkid_display x) < 32)%nat.
Proof. exists (repeat 0 15 ++ [5]). split; [apply wf_bytesb_spec; reflexivity|]. split; [reflexivity|]. vm_compute. lia. Qed.

Lemma rate_text r : r < 256 -> exists t, numeral 10 t (r mod 128 / 2) /\
  rate_display r = t ++ (if N.odd r then str ".5" else []) ++ str "Mbit/s " ++ (if 128 <=? r then str " (B)" else []).
Proof.
  intros L. exists (fmt_dec (r mod 128 / 2)). split; [apply fmt_dec_numeral|].
  assert (X : forallb (fun r => bytes_eqb (rate_display r)
    (fmt_dec (r mod 128 / 2) ++ (if N.odd r then str ".5" else []) ++ str "Mbit/s " ++ (if 128 <=? r then str " (B)" else [])))
    (map N.of_nat (seq 0 256)) = true) by (vm_compute; reflexivity).
  rewrite forallb_forall in X. assert (I : In r (map N.of_nat (seq 0 256))).
  { rewrite <- (N2Nat.id r). apply in_map, in_seq. lia. }
  apply X in I. unfold bytes_eqb in I. now destruct (list_eq_dec _ _ _) in I.
Qed.
Lemma rate_inj r s : r < 256 -> s < 256 -> rate_display r = rate_display s -> r = s.
Proof.
  intros R S E. destruct (rate_text r R) as (t & T & ->) in E. destruct (rate_text s S) as (u & U & ->) in E.
  assert (X : forall (b : bool) (z : bytes) c w, (if b then str ".5" else []) ++ str "Mbit/s " ++ z = c :: w -> ~ is_digit c).
  { intros [] z c w [= <- _] H; now apply H. }
  apply (prefix_end is_digit) in E; [|eapply numeral_chars; exact T|eapply numeral_chars; exact U|apply X|apply X].
  destruct E as [-> E]. pose proof (numeral_value 10 _ _ _ T U) as V.
  assert (Y : N.odd r = N.odd s /\ (128 <=? r) = (128 <=? s)).
  { destruct (N.odd r), (N.odd s), (128 <=? r), (128 <=? s); try (now split); vm_compute in E; discriminate. }
  destruct Y as [Y Z]. pose proof (N.div2_odd r) as P. pose proof (N.div2_odd s) as Q. rewrite Y in P. rewrite N.div2_div in *.
  destruct (N.leb_spec 128 r), (N.leb_spec 128 s); try discriminate; zify; Z.div_mod_to_equations; lia.
Qed.
Lemma mcs_cases v : v < 4 -> v = 0 \/ v = 1 \/ v = 2 \/ v = 3.
Proof. lia. Qed.
Lemma mcs_names v : v < 4 -> vht_mcs_debug (vht_mcs_from_bits v) <> [] /\ no_comma (vht_mcs_debug (vht_mcs_from_bits v)).
Proof.
  intros L. assert (C : forall t, forallb (fun c => negb (c =? 44)) t = true -> no_comma t).
  { intros t H. apply Forall_forall. intros c I. rewrite forallb_forall in H. apply H in I. now apply negb_true_iff, N.eqb_neq in I. }
  destruct (mcs_cases v L) as [->|[->|[->| ->]]]; (split; [discriminate|apply C; reflexivity]).
Qed.
Lemma mcs_name_inj v w : v < 4 -> w < 4 -> vht_mcs_debug (vht_mcs_from_bits v) = vht_mcs_debug (vht_mcs_from_bits w) -> v = w.
Proof.
  intros V W. destruct (mcs_cases v V) as [->|[->|[->| ->]]], (mcs_cases w W) as [->|[->|[->| ->]]]; try reflexivity; discriminate.
Qed.
Lemma quaternary k : forall m m', m < 4 ^ N.of_nat k -> m' < 4 ^ N.of_nat k ->
  (forall n, (n < k)%nat -> m / 4 ^ N.of_nat n mod 4 = m' / 4 ^ N.of_nat n mod 4) -> m = m'.
Proof.
  induction k as [|k IH]; intros m m' L L' H; [change (4 ^ N.of_nat 0) with 1 in *; lia|].
  replace (N.of_nat (S k)) with (N.succ (N.of_nat k)) in * by lia. rewrite N.pow_succ_r in * by lia.
  assert (E : m / 4 = m' / 4).
  { apply IH; [apply N.div_lt_upper_bound; lia|apply N.div_lt_upper_bound; lia|]. intros n Ln. specialize (H (S n) ltac:(lia)).
    replace (N.of_nat (S n)) with (N.succ (N.of_nat n)) in H by lia. rewrite N.pow_succ_r in H by lia.
    rewrite <- !N.div_div in H by (try apply N.pow_nonzero; lia). exact H. }
  specialize (H 0%nat ltac:(lia)). change (4 ^ N.of_nat 0) with 1 in H. rewrite !N.div_1_r in H.
  rewrite (N.div_mod m 4), (N.div_mod m' 4) by lia. now rewrite E, H.
Qed.
Lemma vht_map_inj m m' : m < 65536 -> m' < 65536 -> vht_map_debug m = vht_map_debug m' -> m = m'.
Proof.
  intros L L' E. unfold vht_map_debug in E. rewrite !vht_iter, !map_map in E.
  assert (B : forall m n, spec_vht_mcs m n < 4) by (intros; apply N.mod_lt; lia).
  apply fmt_list_inj in E; try (apply Forall_map, Forall_forall; intros n _; apply mcs_names, B).
  assert (X : forall n, In n (seq 1 8) -> spec_vht_mcs m n = spec_vht_mcs m' n).
  { revert E. generalize (seq 1 8). intros l. induction l as [|n l IH]; intros E k I; [destruct I|]. cbn [map] in E. injection E as E1 E2.
    destruct I as [<-|I]; [apply mcs_name_inj in E1; auto|now apply IH]. }
  assert (Y : forall n, (n < 8)%nat -> m / 4 ^ N.of_nat n mod 4 = m' / 4 ^ N.of_nat n mod 4).
  { intros n Ln. specialize (X (S n)). unfold spec_vht_mcs in X. replace (S n - 1)%nat with n in X by lia. apply X, in_seq. lia. }
  apply (quaternary 8); assumption.
Qed.
(** each stream's entry is named *)
Lemma vht_map_text m : exists names, vht_map_debug m = str "[" ++ join (str ", ") names ++ str "]" /\ length names = 8%nat /\
  forall n, (1 <= n <= 8)%nat -> nth_error names (n - 1) = Some (vht_range_name (spec_vht_mcs m n)).
Proof.
  exists (map (fun n => vht_range_name (spec_vht_mcs m n)) (seq 1 8)). split.
  - unfold vht_map_debug, fmt_list. rewrite vht_iter, map_map. do 3 f_equal. apply map_ext. intros n.
    assert (B : spec_vht_mcs m n < 4) by (apply N.mod_lt; lia). now destruct (mcs_cases _ B) as [->|[->|[->| ->]]].
  - split; [reflexivity|]. intros n L. do 9 (destruct n as [|n]; [lia || reflexivity|]). lia.
Qed.

Section Tim.
Context {cfg : Cfg}.
Lemma bitmap_bytes b bs : bm_bytes b = Ok bs -> exists x, bm_debug b = Ok x /\ number_list x bs.
Proof. intros E. unfold bm_debug. rewrite E. eexists. split; [reflexivity|]. now apply number_list_fmt. Qed.
Lemma bitmap_text t l : tb_aid_iter t = Ok l -> exists x, tb_display t = Ok x /\ number_list x (announced (tb_traffic t) l).
Proof.
  intros E. unfold tb_display. rewrite E. cbn [rbind]. eexists. split; [reflexivity|]. apply number_list_fmt. f_equal. unfold announced.
  rewrite map_app. f_equal; [now destruct (tb_traffic t)|]. destruct l as [l|]; [|reflexivity]. now rewrite map_map.
Qed.
Lemma bitmap_text_inv t x : tb_display t = Ok x -> exists l, tb_aid_iter t = Ok l /\ number_list x (announced (tb_traffic t) l).
Proof.
  intros E. unfold tb_display in E. destruct (tb_aid_iter t) as [l|e|] eqn:I; try discriminate. exists l. split; [reflexivity|].
  destruct (bitmap_text t l I) as (y & Y & N). unfold tb_display in Y. rewrite I in Y. congruence.
Qed.
Lemma element_text t x : te_display t = Ok x -> exists count period bitmap, tim_shown t count period bitmap /\
  exists c p, numeral 10 c count /\ numeral 10 p period /\
  match bitmap with
  | None => x = str "TIMElement { dtim_count: " ++ c ++ str ", dtim_period: " ++ p ++ str " }"
  | Some l => exists y, number_list y l /\ x = str "TIMElement { dtim_count: " ++ c ++ str ", dtim_period: " ++ p ++ str ", association_ids: " ++ y ++ str " }"
  end.
Proof.
  unfold te_display. destruct (te_bitmap t) as [b|] eqn:E.
  - destruct (tb_display b) as [y|e|] eqn:D; try discriminate. cbn [rbind]. intros [= <-].
    destruct (bitmap_text_inv b y D) as (l & I & N). exists (te_count t), (te_period t), (Some (announced (tb_traffic b) l)).
    split; [unfold tim_shown; rewrite E; eauto|]. exists (fmt_dec (te_count t)), (fmt_dec (te_period t)).
    split; [apply fmt_dec_numeral|]. split; [apply fmt_dec_numeral|]. exists y. split; [exact N|].
    unfold fmt_struct. cbn [app map join fst snd]. rewrite <- !app_assoc. reflexivity.
  - cbn [rbind]. intros [= <-]. exists (te_count t), (te_period t), None. split; [unfold tim_shown; now rewrite E|].
    exists (fmt_dec (te_count t)), (fmt_dec (te_period t)). split; [apply fmt_dec_numeral|]. split; [apply fmt_dec_numeral|].
    unfold fmt_struct. cbn [app map join fst snd]. rewrite <- !app_assoc. reflexivity.
Qed.
Lemma element_text_inj t t' x : te_display t = Ok x -> te_display t' = Ok x -> exists count period bitmap,
  tim_shown t count period bitmap /\ tim_shown t' count period bitmap.
Proof.
  intros E E'. destruct (element_text t x E) as (n & m & b & S & c & p & C & P & X).
  destruct (element_text t' x E') as (n' & m' & b' & S' & c' & p' & C' & P' & X').
  pose proof (numeral_chars 10 _ _ C) as Dc. pose proof (numeral_chars 10 _ _ C') as Dc'.
  pose proof (numeral_chars 10 _ _ P) as Dp. pose proof (numeral_chars 10 _ _ P') as Dp'.
  assert (K : forall (r : bytes) d w, str ", dtim_period: " ++ r = d :: w -> ~ is_digit d) by (intros r d w [= <- _] H; now apply H).
  assert (K1 : forall (r : bytes) d w, str ", association_ids: " ++ r = d :: w -> ~ is_digit d) by (intros r d w [= <- _] H; now apply H).
  assert (K2 : forall d w, str " }" = d :: w -> ~ is_digit d) by (intros d w [= <- _] H; now apply H).
  assert (J : exists r r', x = str "TIMElement { dtim_count: " ++ c ++ str ", dtim_period: " ++ p ++ r /\
    x = str "TIMElement { dtim_count: " ++ c' ++ str ", dtim_period: " ++ p' ++ r' /\
    (forall d w, r = d :: w -> ~ is_digit d) /\ (forall d w, r' = d :: w -> ~ is_digit d) /\
    match b with None => r = str " }" | Some l => exists y, number_list y l /\ r = str ", association_ids: " ++ y ++ str " }" end /\
    match b' with None => r' = str " }" | Some l => exists y, number_list y l /\ r' = str ", association_ids: " ++ y ++ str " }" end).
  { destruct b as [l|], b' as [l'|].
    - destruct X as (y & Y & ->), X' as (y' & Y' & X'). eexists _, _. split; [reflexivity|]. split; [exact X'|]. eauto 10.
    - destruct X as (y & Y & ->). eexists _, _. split; [reflexivity|]. split; [exact X'|]. eauto 10.
    - destruct X' as (y & Y & X'). eexists _, _. split; [exact X|]. split; [exact X'|]. eauto 10.
    - eexists _, _. split; [exact X|]. split; [exact X'|]. auto. }
  clear X X'. destruct J as (r & r' & X & X' & R & R' & B & B'). rewrite X in X'. apply app_inv_head in X'.
  apply (prefix_end is_digit) in X'; auto; [|apply K|apply K]. destruct X' as [-> X']. apply app_inv_head in X'.
  apply (prefix_end is_digit) in X'; auto. destruct X' as [-> ->].
  pose proof (numeral_value 10 _ _ _ C C') as ->. pose proof (numeral_value 10 _ _ _ P P') as ->.
  assert (b = b') as ->; [|now exists n', m', b'].
  destruct b as [l|], b' as [l'|]; [| | |reflexivity].
  - destruct B as (y & Y & ->), B' as (y' & Y' & B'). apply app_inv_head, app_inv_tail in B'. subst y'. f_equal. now apply (number_list_unique y).
  - destruct B as (y & Y & ->). discriminate.
  - destruct B' as (y & Y & ->). discriminate.
Qed.
(** received elements *)
Lemma received_text bs t n : wf_bytes bs -> (length bs <= 255)%nat -> rd_tim bs = Ok (t, n) ->
  (exists x, te_display t = Ok x) /\ exists y, te_defmt t = Ok y.
Proof.
  intros W L R. unfold te_display, te_defmt. destruct (te_bitmap t) as [b|] eqn:E; [|split; eexists; reflexivity].
  destruct (received_reports bs t n b W L R E) as (_ & _ & _ & _ & _ & _ & _ & l & I & _).
  unfold tb_display, tb_defmt. rewrite I. cbn [rbind]. split; eexists; reflexivity.
Qed.
(** defmt *)
Lemma defmt_list first rest : str "[" ++ fmt_dec (aid_aid first) ++ flat_map (fun a => str ", " ++ fmt_dec (aid_aid a)) rest ++ str "]"
  = fmt_list (map fmt_dec (map aid_aid (first :: rest))).
Proof.
  unfold fmt_list. cbn [map]. rewrite join_concat, !map_map, flat_map_concat_map. now rewrite <- app_assoc.
Qed.
Lemma defmt_text t l : tb_aid_iter t = Ok l ->
  exists x, tb_defmt t = Ok x /\
    match l with
    | Some (a :: aids) => exists y, number_list y (map aid_aid (a :: aids)) /\ x = y ++ str "[]"
    | _ => number_list x []
    end.
Proof.
  intros E. unfold tb_defmt. rewrite E. cbn [rbind]. eexists. split; [reflexivity|]. destruct l as [[|a l]|].
  - now apply number_list_fmt.
  - exists (fmt_list (map fmt_dec (map aid_aid (a :: l)))). split; [apply number_list_fmt; reflexivity|]. rewrite defmt_list. reflexivity.
  - now apply number_list_fmt.
Qed.
Lemma list_brackets x l : number_list x l -> exists w, x = 91 :: w ++ [93] /\ Forall (fun c => c <> 91) w.
Proof.
  rewrite number_list_fmt. intros ->. exists (join (str ", ") (map fmt_dec l)). split; [reflexivity|].
  induction l as [|n l IH]; [constructor|]. cbn [map]. rewrite join_concat. apply Forall_app. split.
  - eapply Forall_impl; [|apply fmt_dec_chars]. intros c D ->. now apply D.
  - clear IH. induction l as [|m l IH]; [constructor|]. cbn [map concat]. rewrite <- app_assoc. apply Forall_app. split; [change (str ", ") with [44; 32]; repeat constructor; discriminate|].
    apply Forall_app. split; [|exact IH]. eapply Forall_impl; [|apply fmt_dec_chars]. intros c D ->. now apply D.
Qed.
Lemma defmt_broken t aids x : tb_aid_iter t = Ok (Some aids) -> aids <> [] -> tb_defmt t = Ok x -> forall l, ~ number_list x l.
Proof.
  intros I NE E l N. destruct (defmt_text t _ I) as (x' & E' & X). rewrite E in E'. injection E' as <-.
  destruct aids as [|a aids]; [congruence|]. destruct X as (y & Y & ->).
  destruct (list_brackets _ _ N) as (w & X & F). destruct (list_brackets _ _ Y) as (v & -> & _).
  cbn [app] in X. injection X as X. rewrite <- app_assoc in X. cbn [app] in X.
  change (v ++ 93 :: str "[]") with (v ++ [93; 91] ++ [93]) in X. rewrite app_assoc in X. apply app_inj_tail in X as [<- _].
  apply Forall_app in F as [_ F]. inversion F as [|? ? _ F']. inversion F' as [|? ? Z _]. now apply Z.
Qed.
Lemma element_defmt t y : te_defmt t = Ok y -> exists c p, numeral 10 c (te_count t) /\ numeral 10 p (te_period t) /\ exists b,
  y = str "TIMElement { dtim_count: " ++ c ++ str ", dtim_period: " ++ p ++ str ", bitmap: " ++ b ++ str " }" /\
  match te_bitmap t with
  | None => b = str "None"
  | Some bitmap => exists aids x, tb_aid_iter bitmap = Ok aids /\ b = str "Some(" ++ x ++ str ")" /\
    match aids with
    | Some (a :: l) => exists z, number_list z (map aid_aid (a :: l)) /\ x = z ++ str "[]"
    | _ => number_list x []
    end
  end.
Proof.
  intros E. exists (fmt_dec (te_count t)), (fmt_dec (te_period t)). split; [apply fmt_dec_numeral|]. split; [apply fmt_dec_numeral|].
  unfold te_defmt in E. destruct (te_bitmap t) as [b|].
  - destruct (tb_defmt b) as [x|e|] eqn:D; try discriminate. cbn [rbind] in E. apply (f_equal (fun r => match r with Ok v => v | _ => y end)) in E. cbv beta iota in E. subst y.
    exists (str "Some(" ++ x ++ str ")"). split; [reflexivity|].
    destruct (tb_aid_iter b) as [l|e|] eqn:I; [|unfold tb_defmt in D; rewrite I in D; discriminate..].
    exists l, x. split; [reflexivity|]. split; [reflexivity|]. destruct (defmt_text b l I) as (x' & D' & X). rewrite D in D'. injection D' as <-. exact X.
  - cbn [rbind] in E. apply (f_equal (fun r => match r with Ok v => v | _ => y end)) in E. cbv beta iota in E. subst y. exists (str "None"). split; reflexivity.
Qed.
Lemma group_traffic_hidden : exists t t' n n' y, rd_tim [2; 3; 1; 0; 0x30]%N = Ok (t, n) /\ rd_tim [2; 3; 0; 0; 0x30]%N = Ok (t', n') /\
  te_display t <> te_display t' /\ te_defmt t = Ok y /\ te_defmt t' = Ok y.
Proof.
  destruct cfg as [[] [] []]; do 5 eexists; (split; [vm_compute; reflexivity|]); (split; [vm_compute; reflexivity|]); (split; [vm_compute; discriminate|]);
    (split; [vm_compute; reflexivity|]); vm_compute; reflexivity.
Qed.
End Tim.
