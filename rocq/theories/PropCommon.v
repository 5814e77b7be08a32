(** C03, C05, C06, C07, C08: frame control field, code points, bit fields, association IDs. *)
From Verif Require Import Base BaseFacts Bits Layouts BitsFacts Enums EnumsFacts Common SpecCommon SpecCodes SpecLayouts CommonFacts.
Local Open Scope N_scope.

(** ** C03: frame control field *)
(** The parsed parts are the bits the standard assigns. *)
Theorem C03_fields : forall x,
  fcf_version x = spec_version x /\ fcf_flags x = spec_flags x /\
  spec_type_of (fcf_frame_type x) = (spec_type x, spec_subtype x).
Proof. exact fcf_fields. Qed.
Print Assumptions C03_fields.
Example C03_fields_ex : fcf_frame_type 0x0080 = FT_Management Mg_Beacon /\ fcf_frame_type 0x4188 = FT_Data Dt_QoSData.
Proof. split; reflexivity. Qed.

(** the eight flags *)
Theorem C03_flags : forall x, x < 65536 ->
  forall i nm, nth_error ["to_ds"; "from_ds"; "more_fragments"; "retry"; "pwr_mgmt"; "more_data"; "protected"; "order"]%string i = Some nm ->
  lgetb FCFFlags_layout nm (fcf_flags x) = N.testbit x (8 + N.of_nat i).
Proof. exact fcf_flag_bits. Qed.
Print Assumptions C03_flags.

(** Taking a field apart and putting it together again is the identity on all 65536 values. *)
Theorem C03_rebuild : forall x, x < 65536 ->
  fcf_with_version (fcf_version x) (fcf_make (fcf_frame_type x) (fcf_flags x)) = x.
Proof. exact fcf_rebuild. Qed.
Print Assumptions C03_rebuild.

(** Every canonical combination survives the opposite trip. *)
Theorem C03_parts : forall t f v, canonical_frame_type t -> f < 256 -> v < 4 ->
  let x := fcf_with_version v (fcf_make t f) in
  x < 65536 /\ fcf_version x = v /\ fcf_frame_type x = t /\ fcf_flags x = f.
Proof. exact fcf_make_parts. Qed.
Print Assumptions C03_parts.
Example C03_parts_ex : canonical_frame_type (FT_Control (Ct_Unknown 2)) /\ canonical_frame_type (FT_Data Dt_QoSNull)
  /\ canonical_frame_type (FT_Unknown 15) /\ ~ canonical_frame_type (FT_Data (Dt_Unknown 4)).
Proof. cbn. repeat split; try lia. intros [_ H]. discriminate. Qed.

(** What a parser returns is canonical. *)
Theorem C03_parsed_canonical : forall x, x < 65536 -> canonical_frame_type (fcf_frame_type x).
Proof. exact fcf_parsed_canonical. Qed.
Print Assumptions C03_parsed_canonical.

(** ** C05: second address of control frames *)
(** The full claim is false: RTS frames (among others) have a transmitter address. *)
Theorem C05_refuted : exists s, spec_ctrl_has_second_address s = true /\ ft_has_address_2 (FT_Control s) = false.
Proof. exact (ex_intro _ Ct_RTS (conj eq_refl eq_refl)). Qed.
Print Assumptions C05_refuted.
(** Exactly four subtypes are wrong; no subtype without a second address is said to have one. *)
Theorem C05_partial : forall s,
  (ft_has_address_2 (FT_Control s) = spec_ctrl_has_second_address s <->
   ~ (s = Ct_RTS \/ s = Ct_CFEndAck \/ s = Ct_BeamformingReportPoll \/ s = Ct_VHTNDPAnnouncement))
  /\ (ft_has_address_2 (FT_Control s) = true -> spec_ctrl_has_second_address s = true).
Proof. exact (fun s => conj (ctrl_address_2_exact s) (ctrl_address_2_sound s)). Qed.
Print Assumptions C05_partial.

(** ** C06: code points *)
Theorem C06_enums : forall e, In e all_enums -> enum_correct e.
Proof. exact all_enums_correct. Qed.
Print Assumptions C06_enums.
Example C06_enums_ex : List.length all_enums = 26%nat /\ reason_from_bits 7 = Rs_InvalidClass3Frame
  /\ status_into_bits St_TryAnotherBss = 58 /\ category_from_bits 4 = Cat_Unknown 4.
Proof. repeat split; reflexivity. Qed.
(** Distinct canonical values have distinct numbers. *)
Theorem C06_injective : forall e, In e all_enums -> forall u v,
  ce_from e (ce_into e u) = u -> ce_from e (ce_into e v) = v -> ce_into e u = ce_into e v -> u = v.
Proof. exact enum_injective. Qed.
Print Assumptions C06_injective.
(** The structure of data frame subtypes: bit 3 is QoS, bit 2 is "no data", the two low bits are
    the CF-Ack/CF-Poll information (subtype 13 is reserved). *)
Theorem C06_data_subtype_bits : forall n, n < 16 -> n <> 13 ->
  data_is_qos (data_subtype_from_bits n) = N.testbit n 3 /\
  data_has_payload (data_subtype_from_bits n) = negb (N.testbit n 2) /\
  data_cf_into_bits (data_frame_cf (data_subtype_from_bits n)) = n mod 4.
Proof. exact data_subtype_bits. Qed.
Print Assumptions C06_data_subtype_bits.

(** ** C07: bit fields *)
(** For every field of every structure: it lies where the standard says, the getter returns those
    bits, the setter makes the getter return the new value, keeps every other field and every
    other bit. *)
Theorem C07_accessors : forall s W lay nm w,
  In (s, (W, lay)) all_layouts -> In (nm, w) lay -> padding nm = false ->
  exists o, std_position s nm = Some (o, w) /\ o + w <= W /\
    (forall x, lget lay nm x = (x / 2 ^ o) mod 2 ^ w) /\
    (forall v x, v < 2 ^ w -> x < 2 ^ W ->
       lset lay nm v x < 2 ^ W /\ lget lay nm (lset lay nm v x) = v /\
       (forall nm', nm' <> nm -> lget lay nm' (lset lay nm v x) = lget lay nm' x) /\
       (forall k, k < o \/ o + w <= k -> N.testbit (lset lay nm v x) k = N.testbit x k)).
Proof. exact layout_accessors. Qed.
Print Assumptions C07_accessors.
Example C07_accessors_ex : List.length all_layouts = 22%nat /\
  In ("RsnCapabilities"%string, (16, RsnCapabilities_layout)) all_layouts /\
  In ("mfp_config"%string, 2) RsnCapabilities_layout /\
  lget RsnCapabilities_layout "mfp_config" 0x00c0 = 3.
Proof. repeat split; cbn; tauto. Qed.
(** All fields the standard table lists exist, the fields (with padding) fill the word, and a
    word is determined by its fields. *)
Theorem C07_complete : forall s nm p, std_position s nm = Some p ->
  exists W lay, In (s, (W, lay)) all_layouts /\ In nm (map fst lay).
Proof. exact layout_names_complete. Qed.
Print Assumptions C07_complete.
Theorem C07_determined : forall s W lay x y, In (s, (W, lay)) all_layouts ->
  x < 2 ^ W -> y < 2 ^ W -> lay_all_eq 0 lay x y -> x = y.
Proof. exact layout_determined. Qed.
Print Assumptions C07_determined.
Theorem C07_disjoint : forall s W lay n1 n2 p1 p2, In (s, (W, lay)) all_layouts -> n1 <> n2 ->
  lpos lay n1 = Some p1 -> lpos lay n2 = Some p2 -> fst p1 + snd p1 <= fst p2 \/ fst p2 + snd p2 <= fst p1.
Proof. exact layout_disjoint. Qed.
Print Assumptions C07_disjoint.
(** Setters with an out-of-range value: panic in debug builds, low bits in release builds. *)
Theorem C07_out_of_range : forall (cfg : Cfg) s W lay nm w v x,
  In (s, (W, lay)) all_layouts -> In (nm, w) lay -> padding nm = false ->
  @lwith cfg serr lay nm v x = if overflow_checks && (2 ^ w <=? v) then Panic else Ok (lset lay nm (v mod 2 ^ w) x).
Proof. exact @layout_with. Qed.
Print Assumptions C07_out_of_range.

(** ** C08: association IDs *)
Theorem C08_aid : forall n,
  (forall a, aid_new_checked n = Some a ->
     aid_aid a = n mod 16384 /\ aid_into_bits a = 49152 + n mod 16384
     /\ aid_new_checked (aid_into_bits a) = Some a /\ aid_new_checked (aid_aid a) = Some a) /\
  ((exists a, aid_new_checked n = Some a) <-> 1 <= n mod 16384 <= 2007).
Proof. exact aid_checked_spec. Qed.
Print Assumptions C08_aid.
Example C08_aid_ex : aid_new_checked 0xc001 = Some 0xc001 /\ aid_new_checked 2007 = Some 0xc7d7
  /\ aid_new_checked 2008 = None /\ aid_new_checked 0xc000 = None.
Proof. repeat split; reflexivity. Qed.
(** The compile-time macro path agrees with the checked constructor on its whole domain. *)
Theorem C08_unchecked : forall (cfg : Cfg) n, 1 <= n <= 2007 ->
  exists a, aid_new_unchecked n = Ok a /\ aid_new_checked n = Some a.
Proof. exact @aid_unchecked_agrees. Qed.
Print Assumptions C08_unchecked.
