(** C85: retransmitted frames. *)
From Verif Require Import Base BaseFacts SpecBase Crc SpecFcs FcsFacts Enums Common Elements SpecElements SpecElementTypes Mgmt SpecMgmt Data SpecData Generic SpecGeneric
  SpecPortable SpecDelivery SpecNoise SpecPatch SpecRetry RetryFacts RetryFacts2.

(** ** C85 *)
(** Storing the retry flag in a frame that was written, with a new frame check sequence, gives a frame that is read with the same content and the flag. *)
Theorem C85_again : forall (cfg : Cfg) X (l : list (nat * Arm (Got X))) f g, message l f g ->
  message l (again f) (mkGot (got_from g) (got_seq g) true (got_what g)).
Proof. exact @message_again. Qed.
Print Assumptions C85_again.
(** Whatever is lost, damaged or repeated, for any number of senders and for any length of time: behind the duplicate filter every message of which a copy
    arrived intact is there, and in the order in which the first intact copies arrived. *)
Theorem C85_once : forall (cfg : Cfg) X (l : list (nat * Arm (Got X))) frames got copies, typed_arms l ->
  Forall (fun c => message l (frames (copy_of c)) (got (copy_of c)) /\ got_retry (got (copy_of c)) = false) copies ->
  Forall (heard_or_damaged frames) copies ->
  (let arrived := filter (intact frames) copies in
   marked arrived -> one_by_one (fun k => got_from (got k)) arrived -> numbered (fun k => got_from (got k)) (fun k => got_seq (got k)) arrived ->
   exists gots, station (map snd l) (map heard copies) = Ok gots /\
     without_repeats [] gots = map (fun k => got_what (got k)) (once [] (map copy_of arrived))).
Proof. exact @delivered_once. Qed.
Print Assumptions C85_once.
(** Every message is delivered once. *)
Theorem C85_no_more : forall l, NoDup (once [] l) /\ forall k, In k (once [] l) <-> In k l.
Proof. exact @once_all. Qed.
Print Assumptions C85_no_more.
(** With the standard's numbers: every sender counts its messages modulo 4096, and less than 4096 in a row are lost. *)
Theorem C85_counter : forall (cfg : Cfg) X (l : list (nat * Arm (Got X))) frames got copies counter, native_le = true -> typed_arms l ->
  Forall (fun c => message l (frames (copy_of c)) (got (copy_of c)) /\ got_retry (got (copy_of c)) = false) copies ->
  Forall (heard_or_damaged frames) copies ->
  (let arrived := filter (intact frames) copies in
   marked arrived -> one_by_one (fun k => got_from (got k)) arrived -> counted counter frames (fun k => got_from (got k)) arrived ->
   exists gots, station (map snd l) (map heard copies) = Ok gots /\
     without_repeats [] gots = map (fun k => got_what (got k)) (once [] (map copy_of arrived))).
Proof. exact @counted_once. Qed.
Print Assumptions C85_counter.
(** On big endian machines a message can be taken for the repetition of another one: data frame number 1 and beacon number 256 of a transmitter are read
    with the same number. *)
Theorem C85_big_endian_refuted : forall (cfg : Cfg), native_le = false -> exists (l : list (nat * Arm (Got N))) frames got copies counter, typed_arms l /\
  Forall (fun c => message l (frames (copy_of c)) (got (copy_of c)) /\ got_retry (got (copy_of c)) = false) copies /\
  Forall (heard_or_damaged frames) copies /\
  (let arrived := filter (intact frames) copies in
   marked arrived /\ one_by_one (fun k => got_from (got k)) arrived /\ counted counter frames (fun k => got_from (got k)) arrived /\
   exists gots, station (map snd l) (map heard copies) = Ok gots /\
     without_repeats [] gots <> map (fun k => got_what (got k)) (once [] (map copy_of arrived))).
Proof. exact @once_big_endian. Qed.
Print Assumptions C85_big_endian_refuted.
(** An access point sends beacon 0 (interval 100) three times, the first copy is damaged; in between a station sends data message 1 twice; then the access
    point sends beacon 2. *)
Example C85_ex (cfg : Cfg) :
  let frames k := match k with 0 => beacon_f 0x10 100 | 1 => data_f sta 0x70 | _ => beacon_f 0x20 200 end in
  let got k := match k with 0 => beacon_g 0x10 100 | 1 => data_g sta 0x70 | _ => beacon_g 0x20 200 end in
  let hurt := firstn 30 (frames 0) ++ [255; 254; 7; 200]%N ++ skipn 34 (frames 0) in
  let copies := [mkCopy 0 false hurt; mkCopy 1 false (frames 1); mkCopy 0 true (again (frames 0)); mkCopy 1 true (again (frames 1));
                 mkCopy 0 true (again (frames 0)); mkCopy 2 false (frames 2)] in
  typed_arms net_arms /\ Forall (fun c => message net_arms (frames (copy_of c)) (got (copy_of c)) /\ got_retry (got (copy_of c)) = false) copies /\
  Forall (heard_or_damaged frames) copies /\
  (let arrived := filter (intact frames) copies in
   map copy_of arrived = [1; 0; 1; 0; 2] /\ marked arrived /\ one_by_one (fun k => got_from (got k)) arrived /\
   numbered (fun k => got_from (got k)) (fun k => got_seq (got k)) arrived /\
   counted (fun k => match k with 0 => 1%N | 1 => 7%N | _ => 2%N end) frames (fun k => got_from (got k)) arrived) /\
  exists gots, station (map snd net_arms) (map heard copies) = Ok gots /\ length gots = 5 /\ without_repeats [] gots = [2; 100; 200]%N.
Proof.
  intros frames got hurt copies.
  assert (M : Forall (fun c => message net_arms (frames (copy_of c)) (got (copy_of c)) /\ got_retry (got (copy_of c)) = false) copies).
  { assert (A : forall k, k < 3 -> message net_arms (frames k) (got k) /\ got_retry (got k) = false).
    { intros [|[|k]] _; (split; [|reflexivity]); [apply beacon_message; reflexivity| |apply beacon_message; reflexivity].
      apply data_message; [split; [reflexivity|apply wf_bytesb_spec; reflexivity]|reflexivity]. }
    unfold copies. do 6 (apply Forall_cons; [apply A; cbn [copy_of]; lia|]). apply Forall_nil. }
  assert (H : Forall (heard_or_damaged frames) copies).
  { unfold copies. apply Forall_cons; [right|do 5 (apply Forall_cons; [left; reflexivity|]); apply Forall_nil].
    split; [apply wf_bytesb_spec; vm_compute; reflexivity|]. split; [apply wf_bytesb_spec; vm_compute; reflexivity|]. split; [vm_compute; reflexivity|].
    split; [intros Z; apply (f_equal (fun x => nth 30 x 0%N)) in Z; vm_compute in Z; discriminate Z|]. left. exists 240.
    intros i Hi. refine (differsb_spec (seq 240 32) _ _ _ _ i _); [vm_compute; reflexivity|vm_compute; reflexivity|]. rewrite in_seq. lia. }
  assert (E : filter (intact frames) copies = tl copies) by (vm_compute; reflexivity).
  split; [exact net_typed|]. split; [exact M|]. split; [exact H|]. cbv zeta. rewrite E.
  assert (D1 : marked (tl copies)).
  { apply marked_pairs. cbn [tl copies pairs befores map app]. repeat (apply Forall_cons; [cbn [copy_of copy_retry]; intros Z; first [reflexivity|discriminate Z]|]). apply Forall_nil. }
  assert (D2 : one_by_one (fun k => got_from (got k)) (tl copies)).
  { apply one_by_one_pairs. cbn [tl copies pairs befores map app].
    repeat (apply Forall_cons; [cbn [copy_of]; intros Z; first [discriminate Z|repeat (apply Forall_cons; [cbn [copy_of]; intros Y; first [reflexivity|discriminate Y]|]); apply Forall_nil]|]). apply Forall_nil. }
  assert (P : forall c b d, In (c, b, d) (pairs (tl copies)) -> In (copy_of c, copy_of d) [(1, 0); (1, 1); (1, 0); (1, 2); (0, 1); (0, 0); (0, 2); (1, 0); (1, 2); (0, 2)]).
  { intros c b d I. apply (in_map (fun '(c, _, d) => (copy_of c, copy_of d))) in I. exact I. }
  assert (V : got_from (got 1) <> got_from (got 0) /\ got_from (got 1) <> got_from (got 2)).
  { split; intros Z; vm_compute in Z; discriminate Z. }
  assert (Nx : forall c d, next_of (fun k => got_from (got k)) (tl copies) c d -> copy_of c = 0 /\ copy_of d = 2).
  { intros c d Hn. apply next_pairs in Hn. destruct Hn as (b & I & X & Y). pose proof (P c b d I) as Z. cbn [In] in Z. clear - V X Y Z.
    decompose [or] Z; try contradiction; match goal with H : (_, _) = (copy_of c, copy_of d) |- _ => injection H as E1 E2; rewrite <- E1, <- E2 in * end;
      try (split; reflexivity); exfalso; destruct V; try (apply X; reflexivity); congruence. }
  assert (D3 : numbered (fun k => got_from (got k)) (fun k => got_seq (got k)) (tl copies)).
  { intros c d Hn. destruct (Nx c d Hn) as [-> ->]. discriminate. }
  split.
  - split; [reflexivity|]. split; [exact D1|]. split; [exact D2|]. split; [exact D3|]. split.
    + intros c I. cbn [tl copies In] in I. decompose [or] I; try contradiction; subst c; vm_compute; reflexivity.
    + intros c d Hn. destruct (Nx c d Hn) as [-> ->]. split; reflexivity.
  - exists (map (got_copy got) (tl copies)). split; [|split; [reflexivity|destruct cfg as [[] [] []]; vm_compute; reflexivity]].
    rewrite <- E. apply (NoiseFacts.through_noise _ net_arms); [exact net_typed|]. now apply copies_channel.
Qed.
