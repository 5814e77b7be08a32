(** Facts about the Michael MIC. *)
From Verif Require Import Base BaseFacts BitsFacts Michael SpecMichael.
Local Open Scope N_scope.

Lemma pow32 : 2 ^ 32 = 4294967296. Proof. reflexivity. Qed.
Lemma lxor_u32 a b : a < 2 ^ 32 -> b < 2 ^ 32 -> N.lxor a b < 2 ^ 32.
Proof.
  intros Ha Hb. apply bits_small. intros k K. rewrite N.lxor_spec, (small_bits a 32), (small_bits b 32) by assumption. reflexivity.
Qed.
Lemma lor_disjoint a b : N.land a b = 0 -> N.lor a b = a + b.
Proof. intros H. rewrite (N.add_nocarry_lxor _ _ H). symmetry. now apply N.lxor_lor. Qed.
Lemma rot_disjoint x k : x < 2 ^ 32 -> k < 32 -> N.land ((x * 2 ^ k) mod 2 ^ 32) (x / 2 ^ (32 - k)) = 0.
Proof.
  intros Hx Hk. apply N.bits_inj. intros n. rewrite N.bits_0, N.land_spec.
  destruct (N.ltb_spec n k) as [L|L].
  - rewrite N.mod_pow2_bits_low by lia. rewrite N.mul_pow2_bits_low by assumption. reflexivity.
  - rewrite N.div_pow2_bits, (small_bits x 32 (n + (32 - k))) by (assumption || lia). apply andb_false_r.
Qed.
Lemma rotl_spec x k : x < 2 ^ 32 -> k < 32 -> u32_rotl x k = rol32 x k.
Proof.
  intros Hx Hk. unfold u32_rotl, rol32, u32_shl. rewrite N.shiftl_mul_pow2, N.shiftr_div_pow2.
  apply lor_disjoint. now apply rot_disjoint.
Qed.
Lemma rotr_spec x k : x < 2 ^ 32 -> 0 < k -> k < 32 -> u32_rotr x k = ror32 x k.
Proof.
  intros Hx H0 Hk. unfold u32_rotr, ror32, rol32, u32_shl. rewrite N.shiftl_mul_pow2, N.shiftr_div_pow2, N.lor_comm.
  replace (x / 2 ^ k) with (x / 2 ^ (32 - (32 - k))) by (do 2 f_equal; lia).
  apply lor_disjoint. apply rot_disjoint; [assumption|lia].
Qed.
Lemma rol_bound x k : x < 2 ^ 32 -> k < 32 -> rol32 x k < 2 ^ 32.
Proof.
  intros Hx Hk. rewrite <- rotl_spec by assumption. apply bits_small. intros n L.
  unfold u32_rotl, u32_shl. rewrite N.lor_spec, N.mod_pow2_bits_high, N.shiftr_spec' by assumption.
  apply (small_bits x 32); [assumption|lia].
Qed.
Lemma ror_bound x k : x < 2 ^ 32 -> 0 < k -> k < 32 -> ror32 x k < 2 ^ 32.
Proof. intros. apply rol_bound; lia. Qed.
(** bits of a number given by its low byte and the rest *)
Lemma cons_bit b r k : b < 256 -> N.testbit (b + 256 * r) k = if k <? 8 then N.testbit b k else N.testbit r (k - 8).
Proof.
  intros Hb. assert (D : N.land b (256 * r) = 0).
  { apply N.bits_inj. intros n. rewrite N.bits_0, N.land_spec. change 256 with (2 ^ 8). rewrite N.mul_comm.
    destruct (N.ltb_spec n 8).
    - rewrite N.mul_pow2_bits_low by assumption. apply andb_false_r.
    - rewrite (small_bits b 8) by assumption. reflexivity. }
  rewrite <- (lor_disjoint _ _ D), N.lor_spec. change 256 with (2 ^ 8). rewrite (N.mul_comm _ r).
  destruct (N.ltb_spec k 8).
  - rewrite N.mul_pow2_bits_low by assumption. apply orb_false_r.
  - rewrite (small_bits b 8) by assumption. now rewrite N.mul_pow2_bits_high.
Qed.
Lemma le_val4_bit a b c d k : a < 256 -> b < 256 -> c < 256 -> d < 256 ->
  N.testbit (le_val [a; b; c; d]) k =
  if k <? 8 then N.testbit a k else if k <? 16 then N.testbit b (k - 8)
  else if k <? 24 then N.testbit c (k - 16) else N.testbit d (k - 24).
Proof.
  intros Ha Hb Hc Hd. cbn [le_val]. rewrite cons_bit by assumption. destruct (N.ltb_spec k 8); [reflexivity|].
  rewrite cons_bit by assumption. destruct (N.ltb_spec k 16), (N.ltb_spec (k - 8) 8); try lia; [reflexivity|].
  rewrite cons_bit by assumption. destruct (N.ltb_spec k 24), (N.ltb_spec (k - 8 - 8) 8); try lia.
  - f_equal. lia.
  - rewrite N.mul_0_r, N.add_0_r. f_equal. lia.
Qed.
Lemma byte_bit x j k : k < 8 -> N.testbit ((x / 2 ^ j) mod 256) k = N.testbit x (k + j).
Proof. intros H. change 256 with (2 ^ 8). now rewrite N.mod_pow2_bits_low, N.div_pow2_bits. Qed.
Lemma byte_bit0 x k : k < 8 -> N.testbit (x mod 256) k = N.testbit x k.
Proof. intros H. change 256 with (2 ^ 8). now rewrite N.mod_pow2_bits_low. Qed.
Lemma le_bytes4 x : le_bytes 4 x = [x mod 256; (x / 2 ^ 8) mod 256; (x / 2 ^ 16) mod 256; (x / 2 ^ 24) mod 256].
Proof.
  cbn [le_bytes]. rewrite !N.div_div by discriminate. reflexivity.
Qed.
Lemma mod256 x : x mod 256 < 256. Proof. apply N.mod_lt. discriminate. Qed.
Lemma xswap32_val x : xswap32 x =
  le_val [(x / 2 ^ 8) mod 256; x mod 256; (x / 2 ^ 24) mod 256; (x / 2 ^ 16) mod 256].
Proof. unfold xswap32. now rewrite le_bytes4. Qed.
Lemma xswap_spec x : x < 2 ^ 32 -> xswap x = xswap32 x.
Proof.
  intros Hx. apply N.bits_inj. intros k. rewrite xswap32_val, le_val4_bit by apply mod256.
  unfold xswap, u32_shl. rewrite N.lor_spec, N.shiftr_spec', N.land_spec.
  assert (C : k < 32 \/ 32 <= k) by lia. destruct C as [C|C].
  - rewrite N.mod_pow2_bits_low by assumption.
    assert (I : In k (map N.of_nat (seq 0 32))).
    { apply in_map_iff. exists (N.to_nat k). split; [lia|apply in_seq; lia]. }
    cbn [seq map N.of_nat Pos.of_succ_nat Pos.succ] in I.
    repeat (destruct I as [<-|I]; [
      match goal with |- context [N.shiftl _ 8] => idtac end;
      first [ rewrite N.shiftl_spec_low by reflexivity | rewrite N.shiftl_spec_high' by discriminate ];
      rewrite ?N.land_spec; cbn [N.ltb N.compare Pos.compare Pos.compare_cont];
      match goal with |- context [if ?c then _ else _] => change c with true || change c with false | _ => idtac end;
      cbn beta iota;
      repeat match goal with |- context [N.testbit (Npos ?p) ?j] => let b := eval vm_compute in (N.testbit (Npos p) j) in change (N.testbit (Npos p) j) with b end;
      cbn [N.sub N.ltb N.compare Pos.compare Pos.compare_cont Pos.sub Pos.sub_mask Pos.succ_double_mask Pos.double_mask Pos.pred_double Pos.double_pred_mask N.succ_pos Pos.succ];
      rewrite ?andb_false_r, ?andb_true_r, ?orb_false_r, ?orb_false_l;
      first [rewrite byte_bit by reflexivity | rewrite byte_bit0 by reflexivity]; reflexivity |]).
    destruct I.
  - rewrite N.mod_pow2_bits_high, orb_false_r by assumption.
    rewrite (small_bits x 32 (k + 8)) by (assumption || lia).
    destruct (N.ltb_spec k 8); [lia|]. destruct (N.ltb_spec k 16); [lia|]. destruct (N.ltb_spec k 24); [lia|].
    symmetry. apply (small_bits _ 8); [apply mod256|lia].
Qed.
Lemma xswap_bound x : xswap32 x < 2 ^ 32.
Proof.
  rewrite xswap32_val. pose proof (mod256 x). pose proof (mod256 (x / 2 ^ 8)). pose proof (mod256 (x / 2 ^ 16)). pose proof (mod256 (x / 2 ^ 24)).
  change (2 ^ 32) with (256 ^ N.of_nat 4). apply le_val_bound. repeat constructor; assumption.
Qed.
Definition u32 (x : N) : Prop := x < 2 ^ 32.
Definition u32s (s : N * N) : Prop := u32 (fst s) /\ u32 (snd s).
Lemma add_bound x y : u32 (add32 x y). Proof. apply N.mod_lt. discriminate. Qed.
(** ** The block function *)
Lemma step_bound rot s : (forall x, u32 x -> u32 (rot x)) -> u32s s -> u32s (b_step rot s).
Proof. destruct s as [l r]. intros R [Hl Hr]. split; cbn [b_step fst snd] in *; [apply add_bound|apply lxor_u32; [assumption|apply R; assumption]]. Qed.
Lemma rot17 x : u32 x -> u32 (rol32 x 17). Proof. intros. apply rol_bound; [assumption|reflexivity]. Qed.
Lemma rot3 x : u32 x -> u32 (rol32 x 3). Proof. intros. apply rol_bound; [assumption|reflexivity]. Qed.
Lemma rot2 x : u32 x -> u32 (ror32 x 2). Proof. intros. apply ror_bound; [assumption|reflexivity|reflexivity]. Qed.
Lemma rotx x : u32 x -> u32 (xswap32 x). Proof. intros. apply xswap_bound. Qed.
Lemma block_bound s : u32s s -> u32s (b_block s).
Proof.
  intros H. unfold b_block. apply step_bound; [exact rot2|]. apply step_bound; [exact rot3|].
  apply step_bound; [exact rotx|]. apply step_bound; [exact rot17|assumption].
Qed.
Lemma block_spec l r : u32 l -> u32 r -> michael_block_function l r = b_block (l, r).
Proof.
  intros Hl Hr. unfold michael_block_function, b_block, b_step, u32_wrapping_add. fold (add32).
  rewrite !rotl_spec by (assumption || reflexivity).
  assert (Hr1 := lxor_u32 _ _ Hr (rot17 _ Hl)). 
  rewrite xswap_spec by apply add_bound.
  rewrite !rotl_spec by (apply add_bound || reflexivity).
  rewrite rotr_spec by (apply add_bound || reflexivity). reflexivity.
Qed.
(** its inverse *)
Definition b_unstep (rot : N -> N) (s : N * N) : N * N :=
  let '(l, r) := s in let l' := add32 l (2 ^ 32 - r) in (l', N.lxor r (rot l')).
Lemma sub_add l r : u32 l -> u32 r -> add32 (add32 l r) (2 ^ 32 - r) = l.
Proof. unfold u32, add32. rewrite pow32. intros. lia. Qed.
Lemma add_sub l r : u32 l -> u32 r -> add32 (add32 l (2 ^ 32 - r)) r = l.
Proof. unfold u32, add32. rewrite pow32. intros. lia. Qed.
Lemma unstep_step rot s : (forall x, u32 x -> u32 (rot x)) -> u32s s -> b_unstep rot (b_step rot s) = s.
Proof.
  destruct s as [l r]. intros R [Hl Hr]. cbn [fst snd] in *. unfold b_unstep, b_step.
  rewrite sub_add by first [assumption | apply lxor_u32; [assumption|apply R; assumption]].
  now rewrite N.lxor_assoc, N.lxor_nilpotent, N.lxor_0_r.
Qed.
Lemma step_unstep rot s : (forall x, u32 x -> u32 (rot x)) -> u32s s -> b_step rot (b_unstep rot s) = s.
Proof.
  destruct s as [l r]. intros R [Hl Hr]. cbn [fst snd] in *. unfold b_unstep, b_step.
  rewrite N.lxor_assoc, N.lxor_nilpotent, N.lxor_0_r. now rewrite add_sub.
Qed.
Lemma unstep_bound rot s : (forall x, u32 x -> u32 (rot x)) -> u32s s -> u32s (b_unstep rot s).
Proof. destruct s as [l r]. intros R [Hl Hr]. split; cbn [b_unstep fst snd] in *; [apply add_bound|apply lxor_u32; [assumption|apply R, add_bound]]. Qed.
Definition b_unblock (s : N * N) : N * N :=
  b_unstep (fun l => rol32 l 17) (b_unstep xswap32 (b_unstep (fun l => rol32 l 3) (b_unstep (fun l => ror32 l 2) s))).
Lemma unblock_block s : u32s s -> b_unblock (b_block s) = s.
Proof.
  intros H. unfold b_unblock, b_block.
  assert (H1 := step_bound _ _ rot17 H). assert (H2 := step_bound _ _ rotx H1). assert (H3 := step_bound _ _ rot3 H2).
  rewrite unstep_step by (exact rot2 || assumption). rewrite unstep_step by (exact rot3 || assumption).
  rewrite unstep_step by (exact rotx || assumption). now rewrite unstep_step by (exact rot17 || assumption).
Qed.
Lemma block_unblock s : u32s s -> b_block (b_unblock s) = s.
Proof.
  intros H. unfold b_unblock, b_block.
  assert (H1 := unstep_bound _ _ rot2 H). assert (H2 := unstep_bound _ _ rot3 H1). assert (H3 := unstep_bound _ _ rotx H2).
  rewrite step_unstep by (exact rot17 || assumption). rewrite step_unstep by (exact rotx || assumption).
  rewrite step_unstep by (exact rot3 || assumption). now rewrite step_unstep by (exact rot2 || assumption).
Qed.
Lemma unblock_bound s : u32s s -> u32s (b_unblock s).
Proof.
  intros H. unfold b_unblock. apply unstep_bound; [exact rot17|]. apply unstep_bound; [exact rotx|].
  apply unstep_bound; [exact rot3|]. apply unstep_bound; [exact rot2|assumption].
Qed.
Lemma block_injective s t : u32s s -> u32s t -> b_block s = b_block t -> s = t.
Proof. intros Hs Ht E. rewrite <- (unblock_block s Hs), <- (unblock_block t Ht). now rewrite E. Qed.
Lemma block_invertible : exists inverse : N * N -> N * N, forall l r, l < 2 ^ 32 -> r < 2 ^ 32 ->
  inverse (michael_block_function l r) = (l, r) /\
  michael_block_function (fst (inverse (l, r))) (snd (inverse (l, r))) = (l, r) /\
  fst (inverse (l, r)) < 2 ^ 32 /\ snd (inverse (l, r)) < 2 ^ 32.
Proof.
  exists b_unblock. intros l r Hl Hr. assert (H : u32s (l, r)) by (split; assumption).
  assert (B := unblock_bound _ H). destruct B as [Bl Br].
  rewrite !block_spec by assumption. repeat split.
  - now apply unblock_block.
  - rewrite <- surjective_pairing. now apply block_unblock.
  - assumption.
  - assumption.
Qed.
(** ** Messages *)
Lemma words_map n : forall m, length m = (4 * n)%nat ->
  words m = map (fun j => le_val (firstn 4 (skipn (4 * j) m))) (seq 0 n).
Proof.
  induction n as [|n IH]; intros m L.
  - destruct m; [reflexivity|discriminate L].
  - destruct m as [|a [|b [|c [|d m]]]]; cbn [length] in L; try lia.
    cbn [words]. cbn [seq map]. f_equal.
    rewrite (IH m) by lia. rewrite <- seq_shift, map_map. apply map_ext. intros j.
    replace (4 * S j)%nat with (4 + 4 * j)%nat by lia. reflexivity.
Qed.
Lemma padded_length m : length (padded m) = (4 * (length m / 4 + 2))%nat.
Proof. unfold padded, pad_zeros. rewrite app_length. cbn [length]. rewrite repeat_length. lia. Qed.
Lemma words_wf : forall n m, length m = (4 * n)%nat -> wf_bytes m -> Forall u32 (words m).
Proof.
  induction n as [|n IH]; intros m L F.
  - destruct m; [constructor|discriminate L].
  - destruct m as [|a [|b [|c [|d m]]]]; cbn [length] in L; try lia. cbn [words].
    apply wf_bytes_cons in F as [Fa F]. apply wf_bytes_cons in F as [Fb F]. apply wf_bytes_cons in F as [Fc F]. apply wf_bytes_cons in F as [Fd F].
    constructor; [|apply IH; [lia|assumption]].
    unfold u32. change (2 ^ 32) with (256 ^ N.of_nat 4). apply (le_val_bound [a; b; c; d]). repeat constructor; assumption.
Qed.
Lemma padded_wf m : wf_bytes m -> wf_bytes (padded m).
Proof.
  intros H. apply wf_bytes_app. split; [assumption|]. constructor; [reflexivity|].
  apply Forall_forall. intros x I. apply repeat_spec in I. now subst.
Qed.
Lemma words_padded m : words (padded m) =
  map (fun j => le_val (firstn 4 (skipn (4 * j) m))) (seq 0 (length m / 4)) ++
  [le_val (skipn (4 * (length m / 4)) m ++ 0x5a :: repeat 0 (3 - length m mod 4)); 0].
Proof.
  rewrite (words_map _ _ (padded_length m)), seq_app, map_app. f_equal.
  - apply map_ext_in. intros j I. apply in_seq in I. unfold padded.
    rewrite skipn_app, firstn_app, skipn_length.
    replace (4 - (length m - 4 * j))%nat with 0%nat by lia. now rewrite firstn_O, app_nil_r.
  - cbn [seq map Nat.add]. unfold padded, pad_zeros. f_equal; [|f_equal].
    + f_equal. set (n := (length m / 4)%nat). set (k := (length m mod 4)%nat).
      assert (E : length m = (4 * n + k)%nat) by (subst n k; lia). assert (K : (k < 4)%nat) by (subst k; lia).
      rewrite skipn_app, firstn_app, skipn_length, E. replace (4 * n - (4 * n + k))%nat with 0%nat by lia.
      cbn [skipn]. replace (4 * n + k - 4 * n)%nat with k by lia.
      rewrite firstn_all2 by (rewrite skipn_length; lia). f_equal.
      replace (4 - k)%nat with (S (3 - k)) by lia. cbn [firstn]. f_equal.
      replace (7 - k)%nat with (3 - k + 4)%nat by lia. rewrite repeat_app.
      apply firstn_app_exact. now rewrite repeat_length.
    + set (n := (length m / 4)%nat). set (k := (length m mod 4)%nat).
      assert (E : length m = (4 * n + k)%nat) by (subst n k; lia). assert (K : (k < 4)%nat) by (subst k; lia).
      rewrite skipn_app, (skipn_all2 m) by lia. cbn [app]. rewrite E.
      replace (4 * S n - (4 * n + k))%nat with (S (3 - k)) by lia.
      cbn [skipn]. replace (7 - k)%nat with (3 - k + 4)%nat by lia. rewrite repeat_app.
      rewrite skipn_app_exact by now rewrite repeat_length. reflexivity.
Qed.
Lemma michael_words_bound ws : forall s, u32s s -> Forall u32 ws -> u32s (michael_words s ws).
Proof.
  induction ws as [|w ws IH]; intros s Hs F; [assumption|]. inversion_clear F as [|? ? Fw Fs].
  destruct Hs as [Hl Hr]. cbn [michael_words fold_left]. apply IH; [|assumption].
  apply block_bound. split; [apply lxor_u32; assumption|assumption].
Qed.
Section Cfg.
Context {cfg : Cfg}.
Lemma loop_words {E} bs n : forall i l r, (4 * (i + n) <= length bs)%nat -> wf_bytes bs -> u32s (l, r) ->
  @michael_loop E bs i n l r =
  Ok (michael_words (l, r) (map (fun j => le_val (firstn 4 (skipn (4 * j) bs))) (seq i n))).
Proof.
  induction n as [|n IH]; intros i l r L F [Hl Hr]; [reflexivity|]. cbn [fst snd] in *.
  cbn [michael_loop]. rewrite slice_from_ok by lia. cbn [rbind]. rewrite slice_to_ok by (rewrite skipn_length; lia). cbn [rbind].
  assert (W : u32 (le_val (firstn 4 (skipn (i * 4) bs)))).
  { unfold u32. change (2 ^ 32) with (256 ^ N.of_nat 4).
    replace (N.of_nat 4) with (N.of_nat (length (firstn 4 (skipn (i * 4) bs)))) by (rewrite firstn_length, skipn_length; lia).
    apply le_val_bound. now apply wf_firstn, wf_skipn. }
  rewrite block_spec by (try assumption; apply lxor_u32; assumption).
  destruct (b_block (N.lxor l (le_val (firstn 4 (skipn (i * 4) bs))), r)) as [l' r'] eqn:B.
  rewrite IH; [| lia | assumption | rewrite <- B; apply block_bound; split; [apply lxor_u32; assumption|assumption]].
  cbn [seq map]. unfold michael_words. cbn [fold_left fst snd]. rewrite (Nat.mul_comm 4 i), B. reflexivity.
Qed.
Definition initial (key : N) : N * N := (u32_to_be (N.shiftr key 32 mod 2 ^ 32), u32_to_be (key mod 2 ^ 32)).
Lemma to_be_bound x : u32 x -> u32 (u32_to_be x).
Proof.
  intros H. unfold u32_to_be. destruct native_le; [|assumption].
  unfold u32. change (2 ^ 32) with (256 ^ N.of_nat 4). rewrite <- (le_bytes_length 4 x) at 2. apply be_val_bound, le_bytes_wf.
Qed.
Lemma initial_bound key : u32s (initial key).
Proof. split; apply to_be_bound; apply N.mod_lt; discriminate. Qed.
Lemma tail_wf m n : wf_bytes m -> wf_bytes (skipn n m ++ 90 :: repeat 0 (3 - length m mod 4)).
Proof.
  intros F. apply wf_bytes_app. split; [now apply wf_skipn|]. constructor; [reflexivity|].
  apply Forall_forall. intros x I. apply repeat_spec in I. now subst.
Qed.
Lemma michael_spec_words {E} key m : wf_bytes m ->
  @michael _ E key m = let '(l, r) := michael_words (initial key) (words (padded m)) in Ok (be_val (le_bytes 4 l ++ le_bytes 4 r)).
Proof.
  intros F. unfold michael. assert (I := initial_bound key). unfold initial in *. cbn [fst snd] in I.
  rewrite loop_words by (try assumption; lia). cbn [rbind]. rewrite words_padded. unfold michael_words at 2. rewrite fold_left_app.
  fold (michael_words (u32_to_be (N.shiftr key 32 mod 2 ^ 32), u32_to_be (key mod 2 ^ 32)) (map (fun j => le_val (firstn 4 (skipn (4 * j) m))) (seq 0 (length m / 4)))).
  assert (B : u32s (michael_words (u32_to_be (N.shiftr key 32 mod 2 ^ 32), u32_to_be (key mod 2 ^ 32)) (map (fun j => le_val (firstn 4 (skipn (4 * j) m))) (seq 0 (length m / 4))))).
  { apply michael_words_bound; [assumption|]. apply Forall_forall. intros w J. apply in_map_iff in J as (j & <- & J). apply in_seq in J.
    unfold u32. change (2 ^ 32) with (256 ^ N.of_nat 4).
    replace (N.of_nat 4) with (N.of_nat (length (firstn 4 (skipn (4 * j) m)))) by (rewrite firstn_length, skipn_length; lia).
    apply le_val_bound. now apply wf_firstn, wf_skipn. }
  destruct (michael_words _ _) as [l r]. destruct B as [Bl Br]. cbn [fst snd] in Bl, Br.
  rewrite slice_from_ok by lia. cbn [rbind]. rewrite slice_to_ok by (rewrite skipn_length; lia). cbn [rbind].
  destruct (Nat.leb_spec 4 (length m mod 4)); [lia|].
  rewrite firstn_all2 by (rewrite skipn_length; lia). rewrite (Nat.mul_comm (length m / 4)).
  set (t := skipn (4 * (length m / 4)) m ++ 90 :: repeat 0 (3 - length m mod 4)).
  assert (T : u32 (le_val t)).
  { unfold u32. change (2 ^ 32) with (256 ^ N.of_nat 4).
    replace (N.of_nat 4) with (N.of_nat (length t)) by (subst t; rewrite app_length, skipn_length; cbn [length]; rewrite repeat_length; lia).
    apply le_val_bound. subst t. now apply tail_wf. }
  rewrite block_spec by (try assumption; apply lxor_u32; assumption).
  cbn [fold_left fst snd]. assert (B1 : u32s (b_block (N.lxor l (le_val t), r))) by (apply block_bound; split; [apply lxor_u32|]; assumption).
  destruct (b_block (N.lxor l (le_val t), r)) as [l1 r1]. destruct B1 as [B1 B2]. cbn [fst snd] in *.
  rewrite N.lxor_0_r, block_spec by assumption. reflexivity.
Qed.
End Cfg.
