(** A receiver that dispatches frames, looks up elements in them and takes their values apart; and the bytes that make it panic. *)
From Verif Require Import Base SpecBase Crc Common Elements SpecElements ElementTypes Rsn Tim Mgmt Data CryptoHeader Amsdu SpecData Generic SpecGeneric Accessors.

Section Spec.
Context {cfg : Cfg}.
(** the element types of the library *)
Inductive library_type : forall {W R : Type}, ElementType W R -> Prop :=
| L_ssid : library_type SSIDElement
| L_mesh_id : library_type MeshIDElement
| L_rates : library_type SupportedRatesElement
| L_extended_rates : library_type ExtendedSupportedRatesElement
| L_dsss : library_type DSSSParameterSetElement
| L_ibss : library_type IBSSParameterSetElement
| L_bss_load : library_type BSSLoadElement
| L_tim : library_type TIMElement
| L_rsn : library_type RsnElement
| L_ht_capabilities : library_type HTCapabilitiesElement
| L_ht_operation : library_type HTOperationElement
| L_vht_capabilities : library_type VHTCapabilitiesElement
| L_vht_operation : library_type VHTOperationElement
| L_mesh_configuration : library_type MeshConfigurationElement
| L_mesh_peering : library_type MeshPeeringElement
| L_owe : library_type OWETransitionModeElement
| L_gtk : library_type GtkKde
| L_lifetime : library_type LifetimeKde
| L_mac_address : library_type MacAddressKde
| L_pmkid : library_type PmkidKde
| L_nonce : library_type NonceKde
| L_vendor : library_type VendorSpecificElement.

(** What a receiver may ask about the elements of a frame: the first or all elements of a type, the same without reading them, the
    association IDs of the traffic indication map, the rates, the suites and PMKIDs of the RSN element. *)
Inductive Question : Type :=
| First (W R : Type) (t : ElementType W R)
| All (W R : Type) (t : ElementType W R)
| FirstRaw (id : ElementID)
| AllRaw (id : ElementID)
| Aids
| Rates
| Suites.
Definition done {A} (r : Res serr A) : Res serr unit := rmap (fun _ => tt) r.
Definition items {A} (r : reader A) (l : option (RList A)) : Res serr unit :=
  match l with Some l => done (rl_items r l) | None => Ok tt end.
(** does asking return, or panic? *)
Definition answer (body : bytes) (q : Question) : Res serr unit :=
  match q with
  | First _ _ t => done (get_first_element t body)
  | All _ _ t => done (get_matching_elements t body)
  | FirstRaw id => done (get_first_element_raw body id)
  | AllRaw id => done (get_matching_elements_raw body id)
  | Aids => t <- get_first_element TIMElement body ;;
            match t with Some t => match te_bitmap t with Some tb => done (tb_aid_iter tb) | None => Ok tt end | None => Ok tt end
  | Rates => r <- get_first_element SupportedRatesElement body ;;
             x <- get_first_element ExtendedSupportedRatesElement body ;;
             _ <- match r with Some r => done (rates_items (Iter r)) | None => Ok tt end ;;
             match x with Some x => done (rates_items (Iter x)) | None => Ok tt end
  | Suites => r <- get_first_element RsnElement body ;;
              match r with
              | Some r => _ <- items rd_cipher (rsn_pairwise r) ;; _ <- items rd_akm (rsn_akm r) ;; items rd_pmkid (rsn_pmkids r)
              | None => Ok tt
              end
  end.
(** a question about a type of the library, or about any identifier *)
Definition askable (q : Question) : Prop :=
  match q with
  | First _ _ t | All _ _ t => library_type t
  | FirstRaw id | AllRaw id => lookup_id id
  | Aids | Rates | Suites => True
  end.
(** The elements that make a question panic: for mesh peering elements (ID 117) one of more than 24 bytes; if only the first one is
    asked for, without a readable one (of at least 4 bytes) in front of it. *)
Definition deadly (q : Question) (es : list RawElement) : Prop :=
  match q with
  | All _ _ t => et_id t = Id 117 /\ exists raw, In raw es /\ re_type raw = 117%N /\ 24 < length (re_slice raw)
  | First _ _ t => et_id t = Id 117 /\ exists es1 raw es2, es = es1 ++ raw :: es2 /\ re_type raw = 117%N /\ 24 < length (re_slice raw) /\
      Forall (fun e => re_type e = 117%N -> length (re_slice e) < 4) es1
  | _ => False
  end.

(** A receiver: for every frame type (numbers as in [kinds]) what it asks about the elements in such a frame. The result are the
    answers. *)
Definition answers (qs : list Question) (body : bytes) : list (Res serr unit) := map (answer body) qs.
Definition receiver (ask : nat -> list Question) : list (nat * Arm (list (Res serr unit))) :=
  [(0, mkArm _ _ (mgmt_kind Beacon) (rd_mgmt Beacon) (fun f => answers (ask 0) (bb_elements (snd f))));
   (1, mkArm _ _ (mgmt_kind ProbeResponse) (rd_mgmt ProbeResponse) (fun f => answers (ask 1) (bb_elements (snd f))));
   (2, mkArm _ _ (mgmt_kind ProbeRequest) (rd_mgmt ProbeRequest) (fun f => answers (ask 2) (pq_elements (snd f))));
   (3, mkArm _ _ (mgmt_kind Authentication) (rd_mgmt Authentication) (fun f => answers (ask 3) (au_elements (snd f))));
   (4, mkArm _ _ (mgmt_kind AssociationRequest) (rd_mgmt AssociationRequest) (fun f => answers (ask 4) (aq_elements (snd f))));
   (5, mkArm _ _ (mgmt_kind AssociationResponse) (rd_mgmt AssociationResponse) (fun f => answers (ask 5) (ar_elements (snd f))));
   (6, mkArm _ _ (mgmt_kind Deauthentication) (rd_mgmt Deauthentication) (fun f => answers (ask 6) (rb_elements (snd f))));
   (7, mkArm _ _ (mgmt_kind Disassociation) (rd_mgmt Disassociation) (fun f => answers (ask 7) (rb_elements (snd f))));
   (9, mkArm _ _ (mgmt_kind MeshPeeringOpen) (rd_mgmt MeshPeeringOpen) (fun f => answers (ask 9) (mo_elements (snd f))));
   (10, mkArm _ _ (mgmt_kind MeshPeeringConfirm) (rd_mgmt MeshPeeringConfirm) (fun f => answers (ask 10) (mc_elements (snd f))));
   (11, mkArm _ _ (mgmt_kind MeshPeeringClose) (rd_mgmt MeshPeeringClose) (fun f => answers (ask 11) (ml_elements (snd f))))].

(** ** Data frames: take the payload out of its encapsulation and the subframes out of an A-MSDU. *)
Definition use_payload (mic : option MicState) (d : DataFrame bytes) : Res serr unit :=
  w <- potentially_wrapped_payload d mic ;;
  match w with
  | None => Ok tt
  | Some w => match wrapped_payload w with Pl_AMSDU (Some body) => done (amsdu_items body) | _ => Ok tt end
  end.
(** complete subframes, and behind them one whose padding is cut off *)
Definition cut_off (body : bytes) : Prop :=
  exists l front s pad, amsdu_bytes l front /\ ok_sub s /\ body = front ++ enc_sub s ++ pad /\ length pad < pad_length (length (enc_sub s)) /\
    end_ok (sf_payload s ++ pad).
(** the payloads that make [use_payload] panic *)
Definition deadly_payload (h : DataHeader) (mic : option MicState) (p : bytes) : Prop :=
  if N.testbit (dh_flags h) 6 then
    exists m, mic = Some m /\
      ((forall hdr body tag, encapsulated m p hdr body tag -> ~ end_ok body) \/
       (exists hdr body tag, encapsulated m p hdr body tag /\ std_amsdu h = true /\ cut_off body))
  else std_amsdu h = true /\ cut_off p.
End Spec.

(** ** Frames for examples *)
(** a beacon with the SSID "a" and a mesh peering element of [n] bytes *)
Definition crash_beacon (n : nat) : bytes :=
  ([128; 0; 0; 0] ++ repeat 255 6 ++ repeat 2 6 ++ repeat 2 6 ++ [0; 0] ++ repeat 0 8 ++ [100; 0; 1; 0] ++ [0; 1; 97] ++ [117; N.of_nat n] ++ repeat 0 n)%N.
(** a QoS data frame to the distribution system with the given flags and A-MSDU bit *)
Definition crash_data (protected amsdu : bool) (payload : bytes) : bytes :=
  ([136; if protected then 65 else 1; 0; 0] ++ repeat 2 18 ++ [0; 0] ++ [if amsdu then 128 else 0; 0] ++ payload)%N.
(** a subframe with the payload 7, followed by the given padding *)
Definition crash_amsdu (pad : bytes) : bytes := (repeat 2 12 ++ [1; 0; 7] ++ pad)%N.
