(** C36: the Michael MIC. The specification is SpecMichael.v. *)
From Verif Require Import Base Michael SpecMichael MichaelFacts MichaelFacts2.
Local Open Scope N_scope.

(** On little-endian targets [michael] is the function of the standard: key and MIC are eight octets
    each, passed as big-endian numbers. *)
Theorem C36_partial : forall (cfg : Cfg) (key m : bytes),
  native_le = true -> wf_bytes key -> length key = 8%nat -> wf_bytes m ->
  @michael _ unit (be_val key) m = Ok (be_val (michael_mic key m)).
Proof. exact (fun cfg => @michael_standard cfg unit). Qed.
Print Assumptions C36_partial.
(** On big-endian targets it is not: the halves of the key are not converted there. *)
Theorem C36_big_endian_refuted : exists (cfg : Cfg) (key m : bytes),
  native_le = false /\ wf_bytes key /\ length key = 8%nat /\ wf_bytes m /\
  @michael _ unit (be_val key) m <> Ok (be_val (michael_mic key m)).
Proof. exact @michael_big_endian. Qed.
Print Assumptions C36_big_endian_refuted.
(** There it is the function of the standard for another key, and gives the MIC of the standard only for keys whose halves read the same
    in both directions. *)
Theorem C36_big_endian : forall (cfg : Cfg) (key m : bytes),
  native_le = false -> wf_bytes key -> length key = 8%nat -> wf_bytes m ->
  @michael _ unit (be_val key) m = Ok (be_val (michael_mic (halves_reversed key) m)).
Proof. exact (fun cfg => @michael_be_exact cfg unit). Qed.
Print Assumptions C36_big_endian.
Theorem C36_big_endian_keys : forall (cfg : Cfg) (key m : bytes),
  native_le = false -> wf_bytes key -> length key = 8%nat -> wf_bytes m ->
  (@michael _ unit (be_val key) m = Ok (be_val (michael_mic key m)) <-> halves_reversed key = key).
Proof. exact (fun cfg => @michael_be_wrong cfg unit). Qed.
Print Assumptions C36_big_endian_keys.
Example C36_big_endian_ex : halves_reversed [1; 2; 3; 4; 5; 6; 7; 8] = [4; 3; 2; 1; 8; 7; 6; 5] /\ halves_reversed [1; 2; 2; 1; 7; 7; 7; 7] = [1; 2; 2; 1; 7; 7; 7; 7].
Proof. split; reflexivity. Qed.
(** It never panics, and the MIC has 64 bits. *)
Theorem C36_total : forall (cfg : Cfg) key m, wf_bytes m ->
  exists mic, @michael _ unit key m = Ok mic /\ mic < 2 ^ 64.
Proof. exact (fun cfg => @michael_total cfg unit). Qed.
Print Assumptions C36_total.
(** The block function is the one of the standard, and a bijection on pairs of words. *)
Theorem C36_block : forall l r, l < 2 ^ 32 -> r < 2 ^ 32 -> michael_block_function l r = b_block (l, r).
Proof. exact @block_spec. Qed.
Print Assumptions C36_block.
Theorem C36_block_invertible : exists inverse : N * N -> N * N, forall l r, l < 2 ^ 32 -> r < 2 ^ 32 ->
  inverse (michael_block_function l r) = (l, r) /\
  michael_block_function (fst (inverse (l, r))) (snd (inverse (l, r))) = (l, r) /\
  fst (inverse (l, r)) < 2 ^ 32 /\ snd (inverse (l, r)) < 2 ^ 32.
Proof. exact @block_invertible. Qed.
Print Assumptions C36_block_invertible.
(** Two keys never give the same MIC for a message. *)
Theorem C36_keys : forall (cfg : Cfg) k1 k2 m, wf_bytes m -> k1 < 2 ^ 64 -> k2 < 2 ^ 64 ->
  @michael _ unit k1 m = michael k2 m -> k1 = k2.
Proof. exact (fun cfg => @michael_key_injective cfg unit). Qed.
Print Assumptions C36_keys.
(** Two messages of the same length that differ only within one word never have the same MIC. *)
Theorem C36_messages : forall (cfg : Cfg) key m1 m2 i,
  wf_bytes m1 -> wf_bytes m2 -> length m1 = length m2 ->
  (forall j, (j / 4)%nat <> i -> nth j m1 0 = nth j m2 0) ->
  @michael _ unit key m1 = michael key m2 -> m1 = m2.
Proof. exact (fun cfg => @michael_one_word cfg unit). Qed.
Print Assumptions C36_messages.

(** Test vectors of IEEE 802.11-2020, annex J.4, for the model and for the specification. *)
Definition le_target : Cfg := {| strict_end := true; native_le := true; overflow_checks := true |}.
Example C36_vectors :
  @michael le_target unit 0 [] = Ok 0x82925c1ca1d130b8 /\
  @michael le_target unit 0x82925c1ca1d130b8 [0x4d] = Ok 0x434721ca40639b3f /\
  @michael le_target unit 0x434721ca40639b3f [0x4d; 0x69] = Ok 0xe8f9becae97e5d29 /\
  @michael le_target unit 0xe8f9becae97e5d29 [0x4d; 0x69; 0x63] = Ok 0x90038fc6cf13c1db /\
  @michael le_target unit 0x90038fc6cf13c1db [0x4d; 0x69; 0x63; 0x68] = Ok 0xd55e100510128986 /\
  @michael le_target unit 0xd55e100510128986 [0x4d; 0x69; 0x63; 0x68; 0x61; 0x65; 0x6c] = Ok 0x0a942b124ecaa546.
Proof. repeat split. Qed.
Example C36_spec_vectors :
  michael_mic (be_bytes 8 0xd55e100510128986) [0x4d; 0x69; 0x63; 0x68; 0x61; 0x65; 0x6c] = be_bytes 8 0x0a942b124ecaa546 /\
  b_block (1, 0) = (0x6b519593, 0x572b8b8a) /\ michael_block_function 0x01234567 0x83659326 = (0x441492c2, 0x1d8427ed).
Proof. repeat split. Qed.
(** hypotheses of [C36_messages] *)
Example C36_messages_ex :
  (forall j, (j / 4)%nat <> 1%nat -> nth j [1; 2; 3; 4; 5; 6] 0 = nth j [1; 2; 3; 4; 9; 6] 0) /\
  @michael le_target unit 7 [1; 2; 3; 4; 5; 6] <> @michael le_target unit 7 [1; 2; 3; 4; 9; 6].
Proof.
  split; [|vm_compute; discriminate]. intros j J.
  do 4 (destruct j as [|j]; [reflexivity|]). destruct j as [|j]; [exfalso; apply J; reflexivity|]. reflexivity.
Qed.
