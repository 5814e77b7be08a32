(** Proofs about receivers and the bytes that make them panic. *)
From Verif Require Import Base BaseFacts SpecBase Crc CrcFacts Common Elements SpecElements ElementsFacts ElementTypes ElementTypesFacts2 ElementTypesFacts4 Rsn
  RsnFacts RsnFacts2 RsnFacts3 Tim SpecTim TimFacts TimFacts2 Mgmt SpecMgmt MgmtFacts MgmtFacts2 MgmtFacts4 MgmtFacts5 Data CryptoHeader Amsdu SpecData DataFacts DataFacts2 DataFacts3 DataFacts4 DataFacts5
  Enums Generic SpecGeneric GenericFacts GenericFacts2 Accessors LookupFacts AcceptFacts SpecCrash.

Section Facts.
Context {cfg : Cfg}.
Lemma raw_fits bs es : wf_bytes bs -> raw_elements bs = Ok es -> Forall fits es.
Proof.
  intros W E. destruct (raw_elements_spec bs) as (es' & tail & E' & -> & _). assert (es' = es) as -> by congruence. clear E E'.
  apply wf_bytes_app in W as [W _]. induction es as [|e es IH]; [constructor|].
  unfold enc_elements in W. cbn [map concat] in W. apply wf_bytes_app in W as [W1 W2]. constructor; [|auto].
  unfold enc_element in W1. inversion W1 as [|? ? _ W3]. inversion W3 as [|? ? W4 _]. unfold fits. cbn beta in W4. lia.
Qed.
Lemma first_elem {W R} (t : ElementType W R) bs v : lookup_id (et_id t) -> NoPanic (et_read t) -> get_first_element t bs = Ok (Some v) ->
  exists es body, raw_elements bs = Ok es /\ In (element (et_id t) body) es /\ pread (et_read t) body 0 = Ok v.
Proof.
  intros L NP E. destruct (lookup_spec t bs L NP) as (es & os & R1 & F & _ & G). rewrite G in E. injection E as E.
  exists es. clear G. revert E. rewrite R1. clear R1. induction F as [|e o es os P F IH]; [discriminate|].
  cbn [somes]. destruct o as [v'|].
  - intros [= ->]. destruct P as [(body & -> & P)|[_ P]]; [|discriminate]. exists body. split; [reflexivity|]. split; [now left|].
    destruct (pread (et_read t) body 0) eqn:Q; try contradiction; congruence.
  - intros E. destruct (IH E) as (body & _ & I & P'). exists body. split; [reflexivity|]. split; [now right|exact P'].
Qed.
Lemma library_no_panic {W R} (t : ElementType W R) : library_type t -> lookup_id (et_id t) /\ (et_id t = Id 117 \/ (et_id t <> Id 117 /\ NoPanic (et_read t))).
Proof.
  destruct element_types_no_panic as (A1 & A2 & A3 & A4 & A5 & A6 & A7 & A8 & A9 & A10 & A11 & A12 & A13 & A14 & A15 & A16 & A17 & A18 & A19).
  intros []; (split; [try exact I; discriminate|]); try (right; split; [discriminate|assumption]); try (left; reflexivity); (right; split; [discriminate|]); [exact rd_tim_NP|exact rd_rsn_NP].
Qed.
Lemma done_panic {A} (r : Res serr A) : done r = Panic <-> r = Panic.
Proof. destruct r; cbn; split; congruence. Qed.
Lemma first_total {W R} (t : ElementType W R) bs : lookup_id (et_id t) -> NoPanic (et_read t) -> exists o, get_first_element t bs = Ok o.
Proof. intros L NP. destruct (lookup_spec t bs L NP) as (es & os & _ & _ & _ & G). eauto. Qed.
Lemma items_total {A} (r : reader A) l : NoPanic r -> InBounds r -> Progress r -> items r l = Ok tt.
Proof. intros N B P. destruct l as [l|]; [|reflexivity]. destruct (rl_items_total r l N B P) as [x E]. cbn [items]. now rewrite E. Qed.
Lemma aids_total body : wf_bytes body -> answer body Aids = Ok tt.
Proof.
  intros W. cbn [answer]. destruct (first_total TIMElement body I rd_tim_NP) as [o E]. rewrite E. cbn [rbind]. destruct o as [t|]; [|reflexivity].
  destruct (te_bitmap t) as [tb|] eqn:B; [|reflexivity].
  destruct (first_elem TIMElement body t I rd_tim_NP E) as (es & b & R1 & IN & P).
  pose proof (proj1 (Forall_forall _ _) (raw_fits body es W R1) _ IN) as F. unfold fits in F. cbn [element re_slice et_id TIMElement id_prefix app] in F.
  assert (Wb : wf_bytes b).
  { destruct (raw_elements_spec body) as (es' & tail & E' & EB & _). assert (es' = es) as -> by congruence. rewrite EB in W.
    exact (enc_elements_wf es tail W _ IN). }
  unfold pread in P. destruct (gread _ b 0) as [[t' n]| |] eqn:G; try discriminate. injection P as ->.
  apply gread_inv in G as (_ & k & G & _). cbn [skipn] in G.
  destruct (received_reports b t k tb Wb F G B) as (c & p & ctl & map & _ & _ & _ & (l & L & _)). now rewrite L.
Qed.
Lemma rates_total body : answer body Rates = Ok tt.
Proof.
  destruct element_types_no_panic as (_ & _ & A3 & A4 & _). cbn [answer].
  destruct (first_total SupportedRatesElement body I A3) as [o E]. destruct (first_total ExtendedSupportedRatesElement body I A4) as [o' E'].
  rewrite E, E'. cbn [rbind rates_items]. destruct o, o'; rewrite ?rates_collect_id; reflexivity.
Qed.
Lemma rd_cipher_IB : InBounds rd_cipher.
Proof. intros from x n E. destruct (le_lt_dec 4 (length from)) as [L|L]; [apply rd_cipher_size in E; lia|]. destruct (rd_cipher_short from L) as [e Q]. congruence. Qed.
Lemma rd_akm_IB : InBounds rd_akm.
Proof. intros from x n E. destruct (le_lt_dec 4 (length from)) as [L|L]; [apply rd_akm_size in E; lia|]. destruct (rd_akm_short from L) as [e Q]. congruence. Qed.
Lemma suites_total body : answer body Suites = Ok tt.
Proof.
  cbn [answer]. destruct (first_total RsnElement body I rd_rsn_NP) as [o E]. rewrite E. cbn [rbind]. destruct o as [r|]; [|reflexivity].
  rewrite (items_total rd_cipher) by (auto using rd_cipher_NP, rd_cipher_IB, rd_cipher_P).
  rewrite (items_total rd_akm) by (auto using rd_akm_NP, rd_akm_IB, rd_akm_P). cbn [rbind].
  apply items_total; [apply rd_bytes_NP|apply rd_bytes_IB|apply rd_pmkid_P].
Qed.
Lemma library_peering {W R} (t : ElementType W R) : library_type t -> et_id t = Id 117 -> forall body es, wf_bytes body -> raw_elements body = Ok es ->
  (answer body (All _ _ t) = Panic <-> deadly (All _ _ t) es) /\ (answer body (First _ _ t) = Panic <-> deadly (First _ _ t) es).
Proof.
  intros [] Q; try discriminate Q. intros body es Wb E. cbn [answer deadly]. rewrite !done_panic.
  rewrite (peering_matching_panics body es Wb E), (peering_first_panics body es Wb E). tauto.
Qed.
(** C69: questions *)
Lemma answer_panics body q : wf_bytes body -> askable q ->
  answer body q = Panic <-> exists es, raw_elements body = Ok es /\ deadly q es.
Proof.
  intros W A. destruct (raw_elements_spec body) as (es & tail & E & _).
  assert (X : (exists es, raw_elements body = Ok es /\ deadly q es) <-> deadly q es).
  { split; [|eauto]. intros (es' & E' & D). rewrite E' in E. now injection E as ->. }
  rewrite X. clear X. destruct q as [W' R t|W' R t|id|id| | |]; cbn [askable] in A.
  - destruct (library_no_panic t A) as [L [Q|[N NP]]]; [now apply library_peering|].
    cbn [answer deadly]. rewrite done_panic. destruct (lookup_spec t body L NP) as (es' & os & _ & _ & _ & G). rewrite G.
    split; [discriminate|]. intros [Q _]. contradiction.
  - destruct (library_no_panic t A) as [L [Q|[N NP]]]; [now apply library_peering|].
    cbn [answer deadly]. rewrite done_panic. destruct (lookup_spec t body L NP) as (es' & os & _ & _ & G & _). rewrite G.
    split; [discriminate|]. intros [Q _]. contradiction.
  - cbn [answer deadly]. unfold get_first_element_raw. rewrite E. split; [discriminate|intros []].
  - cbn [answer deadly]. unfold get_matching_elements_raw. rewrite E. split; [discriminate|intros []].
  - rewrite (aids_total body W). split; [discriminate|intros []].
  - rewrite rates_total. split; [discriminate|intros []].
  - rewrite suites_total. split; [discriminate|intros []].
Qed.

(** ** Whole frames *)
(** the part of a value read from [from] that [f] gives is the rest of [from] *)
Definition Part {A} (r : reader A) (f : A -> bytes) : Prop := forall from x n, r from = Ok (x, n) -> exists front, from = front ++ f x.
Lemma elements_part from off v o : gread rd_elements from off = Ok (v, o) -> exists front, from = front ++ v.
Proof. intros G. apply gread_inv in G as (_ & k & G & _). unfold rd_elements in G. injection G as <- _. exists (firstn off from). now rewrite firstn_skipn. Qed.
Ltac part := intros from x n E;
  repeat match type of E with
  | (rbind (gread rd_elements ?a ?b) _) = _ => let G := fresh "G" in destruct (gread rd_elements a b) as [[? ?]| |] eqn:G; try discriminate E; cbn [rbind] in E; apply elements_part in G
  | (rbind (gread ?r ?a ?b) _) = _ => destruct (gread r a b) as [[? ?]| |]; try discriminate E; cbn [rbind] in E
  | (rbind ?m _) = _ => destruct m as [?| |]; try discriminate E; cbn [rbind] in E
  | match ?m with _ => _ end = _ => destruct m; try discriminate E
  end; injection E as <- _; assumption.
Lemma beacon_part : Part rd_beacon bb_elements.
Proof. unfold rd_beacon. part. Qed.
Lemma auth_part : Part rd_auth au_elements.
Proof. unfold rd_auth. part. Qed.
Lemma assoc_req_part : Part rd_assoc_req aq_elements.
Proof. unfold rd_assoc_req. part. Qed.
Lemma assoc_resp_part : Part rd_assoc_resp ar_elements.
Proof. unfold rd_assoc_resp. part. Qed.
Lemma reason_part : Part rd_reason rb_elements.
Proof. unfold rd_reason. part. Qed.
Lemma probe_part : Part rd_probe_req pq_elements.
Proof. unfold rd_probe_req. part. Qed.
Lemma open_part : Part rd_mesh_open mo_elements.
Proof. unfold rd_mesh_open. part. Qed.
Lemma confirm_part : Part rd_mesh_confirm mc_elements.
Proof. unfold rd_mesh_confirm. part. Qed.
Lemma close_part : Part rd_mesh_close ml_elements.
Proof. unfold rd_mesh_close. part. Qed.
Lemma mgmt_part {W R} (t : BodyType W R) f : Part (bt_read t) f -> Part (rd_mgmt t false) (fun x => f (snd x)).
Proof.
  intros P from x n E. unfold rd_mgmt in E. cbn [rbind] in E. destruct (gread (rd_le 2) from 0) as [[fcf o]| |]; try discriminate E. cbn [rbind] in E.
  destruct (fcf_frame_type fcf); try discriminate E. destruct (gread (rd_mgmt_header _) from o) as [[h o']| |]; try discriminate E. cbn [rbind] in E.
  destruct (gread (bt_read t) from o') as [[r o'']| |] eqn:G; try discriminate E. injection E as <- _. cbn [snd].
  apply gread_inv in G as (_ & k & G & _). destruct (P _ _ _ G) as [front Q]. exists (firstn o' from ++ front).
  now rewrite <- app_assoc, <- Q, firstn_skipn.
Qed.
(** an arm of a receiver: does not panic, and answers questions about the rest of the frame *)
Definition good_arm (ask : nat -> list Question) (ia : nat * Arm (list (Res serr unit))) : Prop :=
  forall g, match pread (arm_read _ (snd ia) false) g 0 with
  | Ok x => exists front body, g = front ++ body /\ arm_block _ (snd ia) x = answers (ask (fst ia)) body
  | Err _ => True
  | Panic => False
  end.
Lemma mgmt_good {W R} (t : BodyType W R) ask i k f : MgmtTotal t -> Part (bt_read t) f ->
  good_arm ask (i, mkArm _ _ k (rd_mgmt t) (fun x => answers (ask i) (f (snd x)))).
Proof.
  intros [T _] P g. cbn. unfold pread. destruct (gread (rd_mgmt t false) g 0) as [[x n]| |] eqn:G.
  - apply gread_inv in G as (_ & m & G & _). cbn [skipn] in G. destruct (mgmt_part t f P _ _ _ G) as [front Q]. cbn. exists front, (f (snd x)). auto.
  - exact I.
  - exact (gread_no_panic _ _ _ T G).
Qed.
Lemma receiver_good ask : Forall (good_arm ask) (receiver ask).
Proof.
  destruct totals as (T1 & T2 & T3 & T4 & T5 & T6 & T7 & T8 & _ & _ & T11 & T12 & T13).
  unfold receiver. repeat apply Forall_cons; try apply Forall_nil.
  - exact (mgmt_good Beacon ask 0 _ _ T1 beacon_part).
  - exact (mgmt_good ProbeResponse ask 1 _ _ T2 beacon_part).
  - exact (mgmt_good ProbeRequest ask 2 _ _ T8 probe_part).
  - exact (mgmt_good Authentication ask 3 _ _ T3 auth_part).
  - exact (mgmt_good AssociationRequest ask 4 _ _ T4 assoc_req_part).
  - exact (mgmt_good AssociationResponse ask 5 _ _ T5 assoc_resp_part).
  - exact (mgmt_good Deauthentication ask 6 _ _ T6 reason_part).
  - exact (mgmt_good Disassociation ask 7 _ _ T7 reason_part).
  - exact (mgmt_good MeshPeeringOpen ask 9 _ _ T11 open_part).
  - exact (mgmt_good MeshPeeringConfirm ask 10 _ _ T12 confirm_part).
  - exact (mgmt_good MeshPeeringClose ask 11 _ _ T13 close_part).
Qed.
Lemma receiver_typed ask : typed_arms (receiver ask).
Proof.
  split; [cbn; repeat constructor; cbn; intuition discriminate|]. unfold receiver.
  repeat apply Forall_cons; try apply Forall_nil; eexists; reflexivity.
Qed.
Lemma try_arms_good ask l g : Forall (good_arm ask) l -> typed_arms l -> wf_bytes g -> 10 <= length g ->
  match try_arms (map snd l) g with
  | Ok x => exists i front body, In i (map fst l) /\ g = front ++ body /\ x = answers (ask i) body
  | Err _ => True
  | Panic => False
  end.
Proof.
  intros F [ND T] W L. clear ND. induction l as [|[i a] l IH]; [exact I|]. inversion F as [|? ? F1 F2]; subst. inversion T as [|? ? [P K] T2]; subst. specialize (IH F2 T2).
  cbn [fst snd] in K. destruct (kinds_match (arm_kind _ a) P g) as (b & M & _); auto; [right; eapply nth_error_In; exact K|].
  cbn [map snd try_arms fst]. rewrite M. cbn [rbind]. destruct b.
  - specialize (F1 g). cbn [snd fst] in F1. destruct (pread _ g 0) as [x| |]; cbn [rbind]; auto.
    destruct F1 as (front & body & -> & ->). exists i, front, body. split; [now left|auto].
  - destruct (try_arms (map snd l) g) as [x| |]; auto. destruct IH as (j & front & body & IN & E). exists j, front, body. split; [now right|exact E].
Qed.
Lemma answers_panic body es qs : wf_bytes body -> raw_elements body = Ok es -> Forall askable qs ->
  In Panic (answers qs body) <-> exists q, In q qs /\ deadly q es.
Proof.
  intros W E A. unfold answers. rewrite in_map_iff. rewrite Forall_forall in A. split.
  - intros (q & Q & IN). exists q. split; [exact IN|]. apply answer_panics in Q as (es' & E' & D); auto. congruence.
  - intros (q & IN & D). exists q. split; [|exact IN]. apply answer_panics; eauto.
Qed.
(** C69: a receiver *)
Lemma receiver_outcome bs w ask : wf_bytes bs -> (forall i, Forall askable (ask i)) ->
  match match_frames bs w (map snd (receiver ask)) with
  | Ok l => exists i front body behind es, bs = front ++ body ++ behind /\ raw_elements body = Ok es /\
              l = answers (ask i) body /\ (In Panic l <-> exists q, In q (ask i) /\ deadly q es)
  | Err _ => True
  | Panic => w <> None /\ length bs < 4
  end.
Proof.
  intros W A. unfold match_frames. destruct (gf_new_spec bs W) as [N1 N2].
  assert (X : match gf_new bs (match w with Some _ => true | None => false end) with
              | Ok g => 10 <= length g /\ exists behind, bs = g ++ behind
              | Err _ => True | Panic => w <> None /\ length bs < 4 end).
  { destruct w; [|rewrite N1; destruct (Nat.ltb_spec (length bs) 10); [exact I|split; [exact H|exists []; now rewrite app_nil_r]]].
    destruct (gf_new bs true); [|exact I|split; [discriminate|assumption]]. destruct N2 as [-> L]. eauto. }
  clear N1 N2. destruct (gf_new bs _) as [g| |]; cbn [rbind]; auto. destruct X as (L & behind & EB).
  assert (Wg : wf_bytes g) by (rewrite EB in W; now apply wf_bytes_app in W).
  pose proof (try_arms_good ask (receiver ask) g (receiver_good ask) (receiver_typed ask) Wg L) as T.
  destruct (try_arms (map snd (receiver ask)) g) as [l| |]; [|exact I|contradiction].
  destruct T as (i & front & body & _ & Eg & El); subst g l; cbn. destruct (raw_elements_spec body) as (es & tail & E & _).
  exists i, front, body, behind, es. split; [now rewrite EB, app_assoc|]. split; [exact E|]. split; [reflexivity|].
  apply answers_panic; auto. now apply wf_bytes_app in Wg.
Qed.
Lemma receiver_short bs b ask : length bs < 4 -> match_frames bs (Some b) (map snd (receiver ask)) = Panic.
Proof.
  intros L. unfold match_frames, gf_new, strip_and_validate_fcs, usub. destruct (Nat.leb_spec 4 (length bs)); [lia|reflexivity].
Qed.
(** nothing that is not about mesh peering elements can panic *)
Lemma receiver_safe bs w ask : wf_bytes bs -> (forall i, Forall askable (ask i)) ->
  (forall i q es, In q (ask i) -> ~ deadly q es) -> (w = None \/ 4 <= length bs) ->
  match match_frames bs w (map snd (receiver ask)) with Ok l => ~ In Panic l | Err _ => True | Panic => False end.
Proof.
  intros W A D L. pose proof (receiver_outcome bs w ask W A) as R. destruct (match_frames _ _ _) as [l| |]; auto.
  - destruct R as (i & front & body & behind & es & _ & _ & _ & R). intros P. apply R in P as (q & IN & Q). exact (D i q es IN Q).
  - destruct R as [R1 R2]. destruct L as [L|L]; [contradiction|lia].
Qed.
(** ** Data frames *)
Lemma cut_off_collect l front : amsdu_bytes l front -> wf_bytes front -> forall s pad fuel, wf_bytes (enc_sub s ++ pad) -> ok_sub s ->
  length pad < pad_length (length (enc_sub s)) -> end_ok (sf_payload s ++ pad) -> length (front ++ enc_sub s ++ pad) < fuel ->
  sub_collect fuel (@Some bytes (front ++ enc_sub s ++ pad)) = Panic.
Proof.
  induction 1 as [|s0 l pad0 rest OK Lp H IH]; intros W s pad fuel Wt OKs L EO Lf; (destruct fuel; [lia|]); cbn [sub_collect].
  - cbn [app]. rewrite (sub_next_some _ s pad Wt OKs eq_refl EO). destruct (Nat.leb_spec (pad_length (length (enc_sub s))) (length pad)); [lia|reflexivity].
  - rewrite !wf_bytes_app in W. destruct W as (W1 & W2 & W3). rewrite <- !app_assoc in Lf |- *.
    erewrite sub_next_some; [|apply wf_bytes_app; split; [exact W1|]; rewrite (wf_bytes_app pad0), (wf_bytes_app rest); auto|exact OK|reflexivity|].
    + rewrite !app_length in Lf |- *. rewrite (proj2 (Nat.leb_le _ _)) by lia. cbn [rbind].
      rewrite skipn_app_exact by auto. pose proof (enc_sub_length s0 OK). rewrite IH; auto. rewrite app_length. lia.
    + right. intros X. apply (f_equal (@length _)) in X. rewrite 4 app_length in X. rewrite enc_sub_length in X by exact OKs. cbn [length] in X. lia.
Qed.
Lemma items_panic body : wf_bytes body -> (amsdu_items body = Panic <-> cut_off body).
Proof.
  intros W. split.
  - intros P. destruct (items_outcome_all body W) as (l & front & tail & -> & A & [[_ O]|(s & pad & OK & -> & L & O)]); [congruence|].
    exists l, front, s, pad. do 4 (split; [auto|]). rewrite P in O. unfold end_ok. destruct strict_end; [right|now left]. cbn [andb] in O.
    destruct (Nat.eqb_spec (length (enc_sub s ++ pad)) 14) as [|NE]; [discriminate|]. intros Z. apply NE. apply (f_equal (@length _)) in Z.
    rewrite app_length in Z |- *. rewrite enc_sub_length by exact OK. cbn [length] in Z. lia.
  - intros (l & front & s & pad & A & OK & -> & L & EO). apply wf_bytes_app in W as [W1 W2]. apply (cut_off_collect l front A W1); auto.
Qed.
Lemma done_panic' {A} (r : Res serr A) : done r = Panic <-> r = Panic.
Proof. destruct r; cbn; split; congruence. Qed.
Lemma encapsulated_unique m p h1 b1 t1 h2 b2 t2 : encapsulated m p h1 b1 t1 -> encapsulated m p h2 b2 t2 -> b1 = b2.
Proof.
  intros (-> & L1 & _ & T1) (E & L2 & _ & T2). apply app_eq_len in E as [_ E]; [|lia].
  apply (f_equal (@rev N)) in E. rewrite !rev_app_distr in E. apply app_eq_len in E as [_ E]; [|rewrite !rev_length; lia].
  apply (f_equal (@rev N)) in E. now rewrite !rev_involutive in E.
Qed.
Lemma encapsulated_dec m p : (exists hdr body tag, encapsulated m p hdr body tag) \/ (forall hdr body tag, ~ encapsulated m p hdr body tag).
Proof.
  destruct (le_lt_dec (8 + mic_length m) (length p)) as [L|L].
  - destruct (N.testbit (nth 3 (firstn 8 p) 0%N) 5) eqn:B.
    + left. exists (firstn 8 p), (firstn (length p - 8 - mic_length m) (skipn 8 p)), (skipn (length p - 8 - mic_length m) (skipn 8 p)).
      split; [now rewrite !firstn_skipn|]. split; [apply firstn_length_le; lia|]. split; [exact B|]. rewrite !skipn_length. change (length p - 8 - (length p - 8 - mic_length m) = mic_length m). lia.
    + right. intros hdr body tag (-> & L8 & X & _). rewrite firstn_app, firstn_all2, L8 in B by lia. cbn [Nat.sub firstn] in B. rewrite app_nil_r in B. congruence.
  - right. intros hdr body tag (-> & L8 & _ & Lt). change (length tag = mic_length m) in Lt. rewrite !app_length in L. lia.
Qed.
Lemma payload_panics h p mic : ok_data_header h -> wf_bytes p -> (use_payload mic (h, Some p) = Panic <-> deadly_payload h mic p).
Proof.
  intros OK W. destruct (payload_accessor h p mic W) as (A & B & C). unfold deadly_payload. rewrite <- (is_amsdu_std h OK).
  assert (X : forall body, wf_bytes body -> match (if is_amsdu h then Pl_AMSDU (Some body) else Pl_Single body) with Pl_AMSDU (Some b) => done (amsdu_items b) | _ => Ok tt end = Panic <->
     is_amsdu h = true /\ cut_off body).
  { intros body Wb. destruct (is_amsdu h); [rewrite done_panic', (items_panic body Wb); intuition|split; [discriminate|intros [? _]; discriminate]]. }
  destruct (N.testbit (dh_flags h) 6) eqn:P.
  - destruct mic as [m|]; [|unfold use_payload; rewrite B by auto; split; [discriminate|intros (? & ? & _); discriminate]].
    destruct (C eq_refl m eq_refl) as [C1 C2].
    assert (D : (exists hdr body tag, encapsulated m p hdr body tag /\ end_ok body) \/ (forall hdr body tag, encapsulated m p hdr body tag -> ~ end_ok body)).
    { destruct (encapsulated_dec m p) as [(hdr & body & tag & E)|N]; [|right; intros ? ? ? E; now apply N in E].
      assert (EB : end_ok body \/ ~ end_ok body). { unfold end_ok. destruct strict_end; [|left; now left]. destruct body; [right; intros [?|?]; [discriminate|congruence]|left; right; discriminate]. }
      destruct EB as [EB|EB]; [left; exists hdr, body, tag; auto|right]. intros ? ? ? E'. now rewrite (encapsulated_unique _ _ _ _ _ _ _ _ E' E). }
    destruct D as [(hdr & body & tag & E & EB)|N].
    + assert (Wb : wf_bytes body). { destruct E as (-> & _). rewrite !wf_bytes_app in W. tauto. }
      destruct (C1 hdr body tag E EB) as (ch & Q & _). unfold use_payload. rewrite Q. cbn [rbind wrapped_payload cw_payload]. rewrite (X body Wb). split.
      * intros [Y Z]. exists m. split; [reflexivity|]. right. exists hdr, body, tag. auto.
      * intros (m' & [= <-] & [N|(hdr' & body' & tag' & E' & Y & Z)]); [now apply N in E|]. now rewrite (encapsulated_unique _ _ _ _ _ _ _ _ E E').
    + unfold use_payload. rewrite C2 by exact N. split; [|reflexivity]. intros _. exists m. split; [reflexivity|now left].
  - unfold use_payload. rewrite A by reflexivity. destruct (strict_end && (length p =? 0)) eqn:Z; cbn [rbind wrapped_payload]; [|apply X, W].
    split; [discriminate|]. intros (_ & l & front & s & pad & _ & OKs & -> & _). apply andb_true_iff in Z as [_ Z]. apply Nat.eqb_eq in Z.
    rewrite 2 app_length, enc_sub_length in Z by exact OKs. lia.
Qed.
(** C69: data frames *)
Lemma data_panics fcs bs h p n mic : wf_bytes bs -> rd_data fcs bs = Ok ((h, p), n) ->
  (use_payload mic (h, p) = Panic <-> exists p', p = Some p' /\ deadly_payload h mic p').
Proof.
  intros Wb E. destruct p as [p|]; [|split; [discriminate|intros (? & ? & _); discriminate]].
  enough (use_payload mic (h, Some p) = Panic <-> deadly_payload h mic p) as Q by (rewrite Q; split; [eauto|intros (p' & [= <-] & D); exact D]).
  assert (X : exists g, wf_bytes g /\ rd_data false g = Ok ((h, Some p), n)).
  { destruct fcs; [|exists bs; auto]. rewrite rd_data_fcs in E.
    destruct (strip_and_validate_fcs bs) as [g| |] eqn:S; try discriminate. cbn [rbind] in E.
    apply (proj1 (strip_fcs_spec bs Wb)) in S. exists g. split; [|exact E]. rewrite S in Wb. now apply wf_bytes_app in Wb. }
  clear E Wb. destruct X as (g & Wg & E). unfold rd_data in E. cbn [rbind] in E.
  destruct (gread rd_data_header g 0) as [[h' o]| |] eqn:GR; try discriminate. cbn [rbind] in E.
  destruct (data_has_payload (dh_subtype h')); [|discriminate]. destruct (slice_from g o) as [p'| |] eqn:SF; try discriminate. cbn [rbind] in E.
  injection E as -> -> _.
  assert (Wp : wf_bytes p). { unfold slice_from in SF. destruct (_ <=? _); [|discriminate]. injection SF as <-. now apply wf_skipn. }
  clear SF. apply payload_panics; auto. apply gread_inv in GR as (_ & k & GR & _). cbn [skipn] in GR.
  destruct g as [|b0 [|b1 rest]].
  { destruct (data_header_refuse [] Wg) as [e Q]; [discriminate|congruence]. }
  { destruct (data_header_refuse [b0] Wg) as [e Q]; [discriminate|congruence]. }
  destruct (N.eq_dec ((b0 / 4) mod 4) 2) as [T|T].
  2: { destruct (data_header_refuse (b0 :: b1 :: rest) Wg) as [e Q]; [intros ? ? ? [= <- <- <-]; now left|congruence]. }
  destruct (le_lt_dec (data_header_size b0 b1) (length (b0 :: b1 :: rest))) as [L|L].
  2: { destruct (data_header_refuse (b0 :: b1 :: rest) Wg) as [e Q]; [intros ? ? ? [= <- <- <-]; now right|congruence]. }
  destruct (data_header_accept b0 b1 rest Wg T L) as (h2 & tail & H & F & SN & R & Wt & Ln & RD).
  rewrite RD in GR. congruence.
Qed.
End Facts.

Lemma mesh_peering_crash {cfg : Cfg} : let ask := fun _ => [First _ _ MeshPeeringElement] in
  (forall i, Forall askable (ask i)) /\ wf_bytes (crash_beacon 25) /\
  match_frames (crash_beacon 25) None (map snd (receiver ask)) = Ok [Panic] /\
  match_frames (crash_beacon 24) None (map snd (receiver ask)) = Ok [Ok tt].
Proof.
  cbv zeta. split; [intros _; constructor; [constructor|constructor]|]. split; [apply wf_bytesb_spec; vm_compute; reflexivity|].
  destruct cfg as [[] [] []]; vm_compute; auto.
Qed.
Lemma amsdu_crash {cfg : Cfg} : exists h p n, wf_bytes (crash_data false true (crash_amsdu [])) /\
  rd_data false (crash_data false true (crash_amsdu [])) = Ok ((h, Some p), n) /\ use_payload None (h, Some p) = Panic /\
  forall pad, pad = [0]%N -> exists p' n', rd_data false (crash_data false true (crash_amsdu pad)) = Ok ((h, Some p'), n') /\ use_payload None (h, Some p') = Ok tt.
Proof.
  exists (mkDH Dt_QoSData 1 0 (repeat 2%N 6) (repeat 2%N 6) (repeat 2%N 6) 0 None (Some [128; 0]%N) None), (crash_amsdu []), 26.
  split; [apply wf_bytesb_spec; vm_compute; reflexivity|]. split; [destruct cfg as [[] [] []]; vm_compute; reflexivity|].
  split; [destruct cfg as [[] [] []]; vm_compute; reflexivity|]. intros pad ->. exists (crash_amsdu [0]%N), 26.
  split; destruct cfg as [[] [] []]; vm_compute; reflexivity.
Qed.
Lemma protected_crash {cfg : Cfg} : exists h n, let p := [1; 2; 0; 32; 3; 4; 5; 6; 7]%N in
  rd_data false (crash_data true false p) = Ok ((h, Some p), n) /\ use_payload (Some Mic_Short) (h, Some p) = Panic /\
  use_payload None (h, Some p) = Ok tt /\ use_payload (Some Mic_NotPresent) (h, Some p) = Ok tt.
Proof.
  exists (mkDH Dt_QoSData 65 0 (repeat 2%N 6) (repeat 2%N 6) (repeat 2%N 6) 0 None (Some [0; 0]%N) None), 26. cbv zeta.
  repeat split; destruct cfg as [[] [] []]; vm_compute; reflexivity.
Qed.
