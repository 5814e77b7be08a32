(** Facts about vendor specific elements with a prefix. *)
From Verif Require Import Base SpecBase BaseFacts Elements SpecElements ElementsFacts ElementTypes ElementTypesFacts4 Mgmt Vendor SpecVendor AccessorFacts2.

Section Facts.
Context {cfg : Cfg}.
Lemma prefixed_format prefix payload body : Writes (c_write payload) body -> c_measure payload = length body ->
  writes_element (new_prefixed prefix payload) (Id 221) (prefix ++ body) /\
  element (Id 221) (prefix ++ body) = element (VendorSpecific prefix) body.
Proof.
  intros W M. split; [|reflexivity]. split; [reflexivity|]. split.
  - cbn [e_measure new_prefixed]. unfold prefixed_measure. now rewrite app_length, M.
  - cbn [e_write new_prefixed]. unfold wr_vendor, wr_prefixed.
    eapply Writes_eq; [apply wseq_W; constructor; [apply wseq_W; constructor; [apply wr_bytes_W|constructor; [exact W|constructor]]|constructor]|].
    cbn [concat]. now rewrite !app_nil_r.
Qed.
Lemma prefixed_same prefix payload :
  (forall buf, wr_wrapped (new_prefixed prefix payload) buf = wr_wrapped (mkElem (VendorSpecific prefix) (c_measure payload) (c_write payload)) buf) /\
  wrapped_measure (new_prefixed prefix payload) = wrapped_measure (mkElem (VendorSpecific prefix) (c_measure payload) (c_write payload)).
Proof. split; reflexivity. Qed.

Lemma firstn_prefix (p c : bytes) : firstn (length p) c = p <-> exists r, c = p ++ r.
Proof.
  split.
  - intros E. exists (skipn (length p) c). rewrite <- E at 1. symmetry. apply firstn_skipn.
  - intros [r ->]. now rewrite firstn_app, Nat.sub_diag, firstn_all, app_nil_r.
Qed.
Lemma vendor_found bs es : raw_elements bs = Ok es -> get_matching_elements VendorSpecificElement bs = Ok (vendor_contents es).
Proof.
  intros E. destruct (lookup_spec VendorSpecificElement bs I) as (es' & os & E' & F & -> & _).
  { intros from. discriminate. }
  rewrite E in E'. injection E' as <-. f_equal. clear E. unfold vendor_contents.
  induction F as [|e o es os P F IH]; [reflexivity|]. cbn [filter].
  destruct P as [(body & -> & P)|(N & ->)].
  - cbn [element et_id VendorSpecificElement id_prefix re_type re_slice app]. change (221 =? 221)%N with true. cbn [andb].
    cbn [et_read VendorSpecificElement] in P. unfold pread, gread in P.
    destruct body as [|b body].
    + cbn [length Nat.eqb]. unfold gread, end_bad in P. cbn [length] in P. destruct strict_end; cbn in P |- *; subst o; cbn [somes map]; now rewrite IH.
    + rewrite end_bad_lt in P by (cbn [length]; lia). cbn in P. subst o. cbn [length Nat.eqb]. rewrite andb_false_r. cbn [negb somes map re_slice].
      now rewrite IH.
  - cbn [somes]. destruct (N.eqb_spec (re_type e) 221) as [T|T]; cbn [andb]; [|exact IH].
    exfalso. apply N. exists (re_slice e). destruct e as [t s]. cbn in T |- *. now subst t.
Qed.
Lemma with_prefix_hit {R} p (read : bytes -> option R) body cs :
  with_prefix p read ((p ++ body) :: cs) = match read body with Some x => [x] | None => [] end ++ with_prefix p read cs.
Proof.
  unfold with_prefix. cbn [flat_map]. rewrite (skipn_app_exact p body _ eq_refl).
  destruct (list_eq_dec _ _ _) as [Q|Q]; [reflexivity|]. exfalso. apply Q. apply firstn_prefix. now exists body.
Qed.
Lemma with_prefix_miss {R} p (read : bytes -> option R) c cs : ~ (exists r, c = p ++ r) -> with_prefix p read (c :: cs) = with_prefix p read cs.
Proof.
  intros N. unfold with_prefix. cbn [flat_map].
  destruct (list_eq_dec _ _ _) as [Q|Q]; [|reflexivity]. exfalso. apply N. now apply firstn_prefix.
Qed.
Lemma prefix_found {W R} (t : ElementType W R) p bs es : et_id t = VendorSpecific p -> p <> [] -> NoPanic (et_read t) -> raw_elements bs = Ok es ->
  get_matching_elements t bs = Ok (with_prefix p (fun b => match pread (et_read t) b 0 with Ok x => Some x | _ => None end) (vendor_contents es)).
Proof.
  intros I P NP E. destruct (lookup_spec t bs) as (es' & os & E' & F & -> & _); [now rewrite I|exact NP|].
  rewrite E in E'. injection E' as <-. f_equal. clear E. unfold vendor_contents.
  induction F as [|e o es os H F IH]; [reflexivity|]. cbn [filter]. destruct H as [(body & -> & H)|(N & ->)].
  - rewrite I. cbn [element id_prefix re_type re_slice]. change (221 =? 221)%N with true. cbn [andb].
    assert (L : (length (p ++ body) =? 0) = false) by (destruct p; [congruence|reflexivity]).
    rewrite L, andb_false_r. cbn [negb map]. change (re_slice (element (VendorSpecific p) body)) with (p ++ body). rewrite with_prefix_hit.
    destruct (pread (et_read t) body 0); [subst o; cbn [somes app]; f_equal; exact IH|subst o; exact IH|contradiction].
  - destruct ((_ =? _)%N && _) eqn:B; [|exact IH]. apply andb_prop in B as [B _]. apply N.eqb_eq in B. cbn [map somes].
    rewrite with_prefix_miss; [exact IH|]. intros [r Q]. apply N. exists r. rewrite I. destruct e as [ty s]. cbn in B, Q |- *. now subst.
Qed.
Lemma prefixed_found c raws prefix payload body :
  Forall2 item_element (chain_items c) raws -> Forall wf_item (chain_items c) -> Forall fits raws -> end_visible raws [] ->
  In (Typed (new_prefixed prefix payload)) (chain_items c) -> Writes (c_write payload) body -> c_measure payload = length body ->
  strict_end = false \/ prefix ++ body <> [] ->
  exists found, Writes (wr_chain c) (enc_elements raws) /\
    get_matching_elements VendorSpecificElement (enc_elements raws) = Ok found /\ In (prefix ++ body) found /\
    get_payload_if_prefix_matches (prefix ++ body) prefix = Some body.
Proof.
  intros I WI F V C W M S. exists (vendor_contents raws). split; [now apply wr_chain_W|]. split; [|split].
  - apply vendor_found. rewrite <- (app_nil_r (enc_elements raws)). apply raw_elements_enc; [exact F|exact V|apply iteration_end_nil].
  - assert (R : In (element (Id 221) (prefix ++ body)) raws).
    { clear F V WI. induction I as [|i raw is rs H I' IH]; [destruct C|]. destruct C as [->|C]; [|right; now apply IH]. left.
      destruct H as (id & b & (Ei & _ & Wb) & ->). destruct (prefixed_format prefix payload body W M) as ((Ei' & _ & Wb') & _).
      rewrite Ei' in Ei. subst id. now rewrite (writes_unique _ _ _ Wb Wb'). }
    unfold vendor_contents. change (prefix ++ body) with (re_slice (element (Id 221) (prefix ++ body))). apply in_map.
    apply filter_In. split; [exact R|]. cbn [element id_prefix re_type re_slice app]. change (221 =? 221)%N with true. cbn [andb].
    destruct S as [->|S]; [reflexivity|]. destruct (prefix ++ body); [congruence|]. cbn [length Nat.eqb]. now rewrite andb_false_r.
  - now apply vendor_prefix.
Qed.
Lemma container_lengths :
  (forall bs, c_measure (c_read_elements bs) = length bs) /\ (forall bs, c_measure (c_bytes bs) = length bs) /\
  c_measure c_empty = @length N [] /\
  (forall c raws, Forall2 item_element (chain_items c) raws -> Forall wf_item (chain_items c) -> Forall fits raws -> typed_end c ->
     c_measure (c_chain c) = length (enc_elements raws)).
Proof. repeat split. intros c raws I W F T. now apply (chain_measure_spec c raws I W F). Qed.
End Facts.
