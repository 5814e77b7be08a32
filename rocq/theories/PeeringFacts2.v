(** Mesh links: an example, and a frame that stops everybody. *)
From Verif Require Import Base SpecBase BaseFacts Enums Common Elements SpecElements ElementTypes SpecElementTypes Mgmt SpecMgmt Generic SpecGeneric SpecNoise SpecPeering PeeringFacts.

Definition mesh_arms {cfg : Cfg} : list (nat * Arm Said) :=
  [(9, mkArm _ _ (mgmt_kind MeshPeeringOpen) (rd_mgmt MeshPeeringOpen) hear_open);
   (10, mkArm _ _ (mgmt_kind MeshPeeringConfirm) (rd_mgmt MeshPeeringConfirm) hear_confirm)].
Lemma mesh_peers {cfg : Cfg} : peers mesh_arms.
Proof.
  split; [|split; [left; reflexivity|right; left; reflexivity]]. split; [cbn; repeat constructor; cbn; intuition discriminate|].
  repeat constructor; eexists; reflexivity.
Qed.
Definition mesh_aid : AssociationID := 0xC005%N.
Definition mesh_choice (pmk : option bytes) : Choice :=
  mkChoice 300 (repeat 0%N 6) 0x120 0x31 mesh_aid Mpp_MeshPeeringManagementProtocol pmk [mkRaw 0 []; mkRaw 1 [130; 132]%N] [mkRaw 221 [1; 2; 3; 4]%N] (repeat 0%N 100).
(** the link ID of a station: its first byte, and 256 times that of the other one *)
Definition mesh_link (a b : bytes) : N := ((hd 0 a + 256 * hd 0 b) mod 65536)%N.
Lemma mesh_link_ok a b : u16 (mesh_link a b).
Proof. unfold mesh_link, u16. apply N.mod_lt. discriminate. Qed.
Definition frame_of (r : Res serr bytes) : bytes := match r with Ok b => b | _ => [] end.
(** [1] and [2] ask each other, [1] twice; the first frame is heard after the answer to the second one *)
Definition mesh_history {cfg : Cfg} : list MeshEvent :=
  let s1 := repeat 1%N 6 in let s2 := repeat 2%N 6 in let c := mesh_choice None in let k := mesh_choice (Some (repeat 7%N 16)) in
  let f := frame_of (open_frame s1 s2 0x201 c) in let f' := frame_of (open_frame s1 s2 0x201 k) in let g := frame_of (open_frame s2 s1 0x102 c) in
  let cf := frame_of (confirm_frame s2 s1 0x102 0x201 c) in let cg := frame_of (confirm_frame s1 s2 0x201 0x102 k) in
  [Opens s1 s2 c; Opens s1 s2 k; Hears s2 f' c; Hears s1 cf c; Opens s2 s1 c; Hears s1 f c; Hears s2 f c; Hears s1 g k; Hears s1 cg k; Hears s2 cg k].
Lemma mesh_choice_ok {cfg : Cfg} pmk : ok_pmk pmk -> ok_chosen (mesh_choice pmk).
Proof.
  intros K. split; [reflexivity|]. split; [split; [reflexivity|now apply wf_bytesb_spec]|]. split; [reflexivity|]. split; [reflexivity|].
  split; [split; discriminate|]. split; [split; reflexivity|]. split; [exact K|].
  assert (N : forall t b, (t < 256)%N -> t <> 117%N -> wf_bytesb b = true -> length b <= 255 -> no_peering (mkRaw t b))
    by (intros t b Ht Hn W L; split; [exact Ht|]; split; [exact Hn|]; split; [now apply wf_bytesb_spec|exact L]).
  split; [apply Forall_cons; [apply N; [reflexivity|discriminate|reflexivity|cbn; lia]|apply Forall_cons; [apply N; [reflexivity|discriminate|reflexivity|cbn; lia]|apply Forall_nil]]|].
  split; [apply Forall_cons; [apply N; [reflexivity|discriminate|reflexivity|cbn; lia]|apply Forall_nil]|].
  split; [right; right; cbn; discriminate|cbn; lia].
Qed.
Definition on_air (m : Mesh) (e : MeshEvent) : bool := match e with Opens _ _ _ => true | Hears _ b _ => existsb (is_addr b) (m_air m) end.
Fixpoint follow_mesh {cfg : Cfg} (l : list (nat * Arm Said)) link (m : Mesh) (es : list MeshEvent) : option Mesh :=
  match es with
  | [] => Some m
  | e :: rest => if on_air m e then match mesh_step l link m e with Ok m1 => follow_mesh l link m1 rest | _ => None end else None
  end.
Lemma follow_mesh_runs {cfg : Cfg} l link es : forall m m', Forall (fun e => match e with Opens a b s => address a /\ address b /\ ok_chosen s | Hears _ _ s => ok_chosen s end) es ->
  follow_mesh l link m es = Some m' -> mesh_runs l link m es m'.
Proof.
  induction es as [|e es IH]; intros m m' F E; cbn in E; [injection E as <-; constructor|]. inversion F as [|? ? Fe Fs]; subst.
  destruct (on_air m e) eqn:M; [|discriminate]. destruct (mesh_step l link m e) as [m1| |] eqn:S; try discriminate.
  apply (mesh_more l link m e m1); [|exact S|now apply IH].
  destruct e as [a b s|n b s]; cbn in *; [exact Fe|]. split; [|exact Fe]. left. left. apply existsb_exists in M as (x & I & Ex). apply is_addr_spec in Ex. now subst x.
Qed.
Lemma mesh_ex {cfg : Cfg} : exists m, mesh_runs mesh_arms mesh_link no_links mesh_history m /\
  m_opened m = [(repeat 1%N 6, repeat 2%N 6, 0x102%N); (repeat 2%N 6, repeat 1%N 6, 0x201%N); (repeat 2%N 6, repeat 1%N 6, 0x201%N)] /\
  m_confirmed m = [(repeat 2%N 6, repeat 1%N 6, 0x201%N); (repeat 1%N 6, repeat 2%N 6, 0x102%N)].
Proof.
  assert (E : option_map (fun m => (m_opened m, m_confirmed m)) (follow_mesh mesh_arms mesh_link no_links mesh_history)
    = Some ([(repeat 1%N 6, repeat 2%N 6, 0x102%N); (repeat 2%N 6, repeat 1%N 6, 0x201%N); (repeat 2%N 6, repeat 1%N 6, 0x201%N)],
            [(repeat 2%N 6, repeat 1%N 6, 0x201%N); (repeat 1%N 6, repeat 2%N 6, 0x102%N)])) by (destruct cfg as [[] [] []]; vm_compute; reflexivity).
  destruct (follow_mesh mesh_arms mesh_link no_links mesh_history) as [m|] eqn:F; [|discriminate E]. cbn [option_map] in E. injection E as E1 E2.
  exists m. split; [|auto]. apply follow_mesh_runs; [|exact F].
  assert (A : forall b, (b < 256)%N -> address (repeat b 6)) by (intros b B; split; [reflexivity|cbn; repeat (constructor; [exact B|]); constructor]).
  pose proof (mesh_choice_ok None Logic.I) as O. assert (O' : ok_chosen (mesh_choice (Some (repeat 7%N 16)))) by (apply mesh_choice_ok; split; [reflexivity|now apply wf_bytesb_spec]).
  unfold mesh_history. cbv zeta.
  apply Forall_cons; [exact (conj (A 1%N eq_refl) (conj (A 2%N eq_refl) O))|]. apply Forall_cons; [exact (conj (A 1%N eq_refl) (conj (A 2%N eq_refl) O'))|].
  do 2 (apply Forall_cons; [exact O|]). apply Forall_cons; [exact (conj (A 2%N eq_refl) (conj (A 1%N eq_refl) O))|].
  do 2 (apply Forall_cons; [exact O|]). do 3 (apply Forall_cons; [exact O'|]). apply Forall_nil.
Qed.
(** ** A stranger's open frame with a peering element of 25 bytes, written by the crate itself, stops everybody who receives it. *)
Definition stranger {cfg : Cfg} : Res serr (bytes * nat) :=
  wr_mgmt MeshPeeringOpen (mkMH 0 300 (repeat 255%N 6) (repeat 9%N 6) (repeat 0%N 6) 0x120 None) (mkOpen 0x31 (c_bytes (117 :: 25 :: repeat 1 25)%N)) true (repeat 0%N 100).
Lemma stranger_stops {cfg : Cfg} : exists buffer n, stranger = Ok (buffer, n) /\
  forall link m a s, mesh_step mesh_arms link m (Hears a (firstn n buffer) s) = Panic.
Proof.
  assert (E : match stranger with Ok (buffer, n) => match_frames (firstn n buffer) (Some true) (map snd mesh_arms) | _ => Ok SOther end = Ok SPanic)
    by (destruct cfg as [[] [] []]; vm_compute; reflexivity).
  destruct stranger as [[buffer n]| |]; [|discriminate E..]. exists buffer, n. split; [reflexivity|]. intros. cbn [mesh_step]. now rewrite E.
Qed.
