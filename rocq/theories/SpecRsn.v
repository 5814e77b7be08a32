(** The RSN element of IEEE 802.11-2020, 9.4.2.24, as plain lists of suites, independent of the
    reading and writing code. *)
From Verif Require Import Base SpecBase Suites Rsn.

(** ** Suite selectors: OUI 00-0F-AC and a number, tables 9-149 and 9-151 *)
Definition ieee_suite (t : N) : bytes := [0x00; 0x0f; 0xac; t]%N.
Definition cipher_number (c : CipherSuite) : option N :=
  match c with
  | Cs_Unknown _ => None
  | Cs_UseGroupCipherSuite => Some 0
  | Cs_Wep40 => Some 1
  | Cs_Tkip => Some 2
  | Cs_Ccmp128 => Some 4
  | Cs_Wep104 => Some 5
  | Cs_BipCmac128 => Some 6
  | Cs_GroupAddessedTrafficNotAllowed => Some 7
  | Cs_Gcmp128 => Some 8
  | Cs_Gcmp256 => Some 9
  | Cs_Ccmp256 => Some 10
  | Cs_BIPGcmp128 => Some 11
  | Cs_BIPGcmp256 => Some 12
  | Cs_BIPCcmp256 => Some 13
  end%N.
Definition akm_number (a : AkmType) : option N :=
  match a with
  | Ak_Unknown _ => None
  | Ak_None => Some 0
  | Ak_Wpa => Some 1
  | Ak_Psk => Some 2
  | Ak_FTOverIEEE8021X => Some 3
  | Ak_FTUsingPsk => Some 4
  | Ak_WpaSha256 => Some 5
  | Ak_PskSha256 => Some 6
  | Ak_Tdls => Some 7
  | Ak_Sae => Some 8
  | Ak_FTUsingSae => Some 9
  | Ak_APPeerKey => Some 10
  | Ak_WpaSha256SuiteB => Some 11
  | Ak_WpaSha384SuiteB => Some 12
  | Ak_FTOverIEEE8021XSha384 => Some 13
  | Ak_FilsSha256Aes256 => Some 14
  | Ak_FilsSha384Aes512 => Some 15
  | Ak_FTOverFilsSha256Aes256 => Some 16
  | Ak_FTOverFilsSha384Aes512 => Some 17
  | Ak_OpportunisticWirelessEncryption => Some 18
  | Ak_FTUsingPskSha384 => Some 19
  | Ak_PskSha384 => Some 20
  | Ak_Pasn => Some 21
  | Ak_SaeGroupDefend => Some 22
  | Ak_FTUsingSaeGroupDefend => Some 23
  end%N.
(** selectors on the air; an unknown suite keeps its selector *)
Definition enc_cipher (c : CipherSuite) : bytes :=
  match c with
  | Cs_Unknown sel => le_bytes 4 sel
  | _ => match cipher_number c with Some t => ieee_suite t | None => [] end
  end.
Definition enc_akm (a : AkmType) : bytes :=
  match a with
  | Ak_Unknown sel => le_bytes 4 sel
  | _ => match akm_number a with Some t => ieee_suite t | None => [] end
  end.
(** [Unknown] is only used for selectors which have no name *)
Definition ok_cipher (c : CipherSuite) : Prop :=
  match c with
  | Cs_Unknown sel => (sel < 2 ^ 32)%N /\ forall d, cipher_number d <> None -> enc_cipher d <> le_bytes 4 sel
  | _ => True
  end.
Definition ok_akm (a : AkmType) : Prop :=
  match a with
  | Ak_Unknown sel => (sel < 2 ^ 32)%N /\ forall d, akm_number d <> None -> enc_akm d <> le_bytes 4 sel
  | _ => True
  end.
Definition ok_pmkid (p : bytes) : Prop := length p = 16 /\ wf_bytes p.

(** ** Key and MIC lengths: tables 12-7 (cipher suite key lengths) and 12-11 (AKM); bytes.
    Of the AKM table only the rows we are sure of are stated. *)
Definition standard_tk_len (c : CipherSuite) : option nat :=
  match c with
  | Cs_Wep40 => Some 5 | Cs_Wep104 => Some 13
  | Cs_Tkip => Some 32
  | Cs_Ccmp128 | Cs_Gcmp128 | Cs_BipCmac128 | Cs_BIPGcmp128 => Some 16
  | Cs_Ccmp256 | Cs_Gcmp256 | Cs_BIPCcmp256 | Cs_BIPGcmp256 => Some 32
  | Cs_UseGroupCipherSuite | Cs_GroupAddessedTrafficNotAllowed | Cs_Unknown _ => None
  end.
Definition standard_mic_len (c : CipherSuite) : option nat :=
  match c with
  | Cs_Tkip | Cs_Ccmp128 | Cs_BipCmac128 => Some 8
  | Cs_Gcmp128 | Cs_Gcmp256 | Cs_Ccmp256 | Cs_BIPGcmp128 | Cs_BIPGcmp256 | Cs_BIPCcmp256 => Some 16
  | _ => None
  end.
(** AKM suites with 128 bit KCK, KEK and MIC; with 192 bit KCK and MIC and 256 bit KEK *)
Definition akm_128 (a : AkmType) : Prop :=
  In a [Ak_Wpa; Ak_Psk; Ak_FTOverIEEE8021X; Ak_FTUsingPsk; Ak_WpaSha256; Ak_PskSha256; Ak_Sae; Ak_FTUsingSae; Ak_WpaSha256SuiteB].
Definition akm_192 (a : AkmType) : Prop := In a [Ak_WpaSha384SuiteB; Ak_FTOverIEEE8021XSha384].

(** The remaining rows, for the FILS suites (14 to 17), TDLS (7) and AP peer key (10), as the crate
    documents them: FILS has no KCK of its own, a 256 or 512 bit KEK, and with fast transition a
    second pair of keys. [(KCK, KEK, MIC, KCK2, KEK2)] *)
Definition akm_row (a : AkmType) : option nat * option nat * option nat * option nat * option nat :=
  match akm_number a with
  | Some 12%N | Some 13%N => (Some 24, Some 32, Some 24, None, None)
  | Some 14%N => (None, Some 32, Some 0, None, None)
  | Some 15%N => (None, Some 64, Some 0, None, None)
  | Some 16%N => (None, Some 32, Some 16, Some 16, Some 16)
  | Some 17%N => (None, Some 64, Some 24, Some 24, Some 32)
  | Some t => if ((1 <=? t) && (t <=? 11))%N%bool then (Some 16, Some 16, Some 16, None, None)
              else (None, None, None, None, None)
  | None => (None, None, None, None, None)
  end.

(** ** The element *)
Record RsnView := mkView {
  v_group : option CipherSuite;
  v_pairwise : option (list CipherSuite);
  v_akm : option (list AkmType);
  v_caps : option N;
  v_pmkids : option (list bytes);
  v_group_mgmt : option CipherSuite }.
Definition opt_enc {A} (f : A -> bytes) (o : option A) : bytes := match o with Some a => f a | None => [] end.
(** a list: a count field and the items; [k] is the value of the count per item *)
Definition enc_list {A} (k : nat) (f : A -> bytes) (l : list A) : bytes :=
  le_bytes 2 (N.of_nat (k * length l)) ++ concat (map f l).
(** The standard's format is [enc_rsn 1]: the PMKID count counts PMKIDs. *)
Definition enc_rsn (k : nat) (v : RsnView) : bytes :=
  le_bytes 2 1 ++ opt_enc enc_cipher (v_group v) ++ opt_enc (enc_list 1 enc_cipher) (v_pairwise v)
  ++ opt_enc (enc_list 1 enc_akm) (v_akm v) ++ opt_enc (le_bytes 2) (v_caps v)
  ++ opt_enc (enc_list k (fun p => p)) (v_pmkids v) ++ opt_enc enc_cipher (v_group_mgmt v).
(** fields are present up to some point and absent after it *)
Definition gap_free (v : RsnView) : Prop :=
  (v_pairwise v <> None -> v_group v <> None) /\ (v_akm v <> None -> v_pairwise v <> None) /\
  (v_caps v <> None -> v_akm v <> None) /\ (v_pmkids v <> None -> v_caps v <> None) /\
  (v_group_mgmt v <> None -> v_pmkids v <> None).
(** the fields up to the first absent one *)
Definition up_to_gap (v : RsnView) : RsnView :=
  match v with
  | mkView None _ _ _ _ _ => mkView None None None None None None
  | mkView g None _ _ _ _ => mkView g None None None None None
  | mkView g p None _ _ _ => mkView g p None None None None
  | mkView g p a None _ _ => mkView g p a None None None
  | mkView g p a c None _ => mkView g p a c None None
  | mkView g p a c k m => mkView g p a c k m
  end.
Definition opt_ok {A} (f : A -> Prop) (o : option A) : Prop := match o with Some a => f a | None => True end.
Definition ok_view (v : RsnView) : Prop :=
  opt_ok ok_cipher (v_group v) /\ opt_ok (Forall ok_cipher) (v_pairwise v) /\ opt_ok (Forall ok_akm) (v_akm v) /\
  opt_ok (fun c => (c < 65536)%N) (v_caps v) /\ opt_ok (Forall ok_pmkid) (v_pmkids v) /\ opt_ok ok_cipher (v_group_mgmt v).
(** number of PMKIDs *)
Definition pmkid_count (v : RsnView) : nat := match v_pmkids v with Some l => length l | None => 0 end.

(** ** Values of the crate's type and what they stand for *)
Definition list_shows {A} (enc : A -> bytes) (x : option (RList A)) (o : option (list A)) : Prop :=
  match x, o with
  | Some (Arr l), Some l' => l = l'
  | Some (Iter bs), Some l' => bs = concat (map enc l')
  | None, None => True
  | _, _ => False
  end.
Definition shows (x : Rsn) (v : RsnView) : Prop :=
  rsn_group x = v_group v /\ list_shows enc_cipher (rsn_pairwise x) (v_pairwise v) /\
  list_shows enc_akm (rsn_akm x) (v_akm v) /\ rsn_caps x = v_caps v /\
  list_shows (fun p => p) (rsn_pmkids x) (v_pmkids v) /\ rsn_group_mgmt x = v_group_mgmt v.
(** lists given as arrays *)
Definition array_view (x : Rsn) : option RsnView :=
  let arr {A} (o : option (RList A)) : option (option (list A)) :=
    match o with None => Some None | Some (Arr l) => Some (Some l) | Some (Iter _) => None end in
  match arr (rsn_pairwise x), arr (rsn_akm x), arr (rsn_pmkids x) with
  | Some p, Some a, Some k => Some (mkView (rsn_group x) p a (rsn_caps x) k (rsn_group_mgmt x))
  | _, _, _ => None
  end.

Section Spec.
Context {cfg : Cfg}.
(** scroll versions that refuse empty reads at the end lose an empty list at the end *)
Definition end_not_empty_list (v : RsnView) : Prop :=
  strict_end = false \/
  match v with
  | mkView _ (Some []) None _ _ _ | mkView _ _ (Some []) None _ _ | mkView _ _ _ _ (Some []) None => False
  | _ => True
  end.
(** the capabilities are read in the byte order of the machine *)
Definition caps_readable (v : RsnView) : Prop := native_le = true \/ v_caps v = None.

(** ** Received elements. [raw_enc y]: the bytes which were taken as the fields of [y]. *)
Definition raw_list {A} (o : option (RList A)) : bytes :=
  match o with
  | Some (Iter bs) => le_bytes 2 (N.of_nat (length bs / 4)) ++ bs
  | _ => []
  end.
Definition raw_enc (y : Rsn) : bytes :=
  le_bytes 2 1 ++ opt_enc enc_cipher (rsn_group y) ++ raw_list (rsn_pairwise y) ++ raw_list (rsn_akm y)
  ++ opt_enc (fun c => if native_le then le_bytes 2 c else be_bytes 2 c) (rsn_caps y)
  ++ raw_list (rsn_pmkids y) ++ opt_enc enc_cipher (rsn_group_mgmt y).
(** no complete list at the front: no count field, or not the announced number of bytes *)
Definition no_list (bs : bytes) : Prop :=
  match bs with
  | a :: b :: rest =>
      length rest < N.to_nat (4 * (a + 256 * b)) \/ (strict_end = true /\ a = 0%N /\ b = 0%N /\ rest = [])
  | _ => True
  end.
(** [y] holds the fields in front of [tail], and the next field is not there *)
Definition stops_at (y : Rsn) (tail : bytes) : Prop :=
  match y with
  | mkRsn None None None None None None => length tail < 4
  | mkRsn (Some _) None None None None None => no_list tail
  | mkRsn (Some _) (Some (Iter _)) None None None None => no_list tail
  | mkRsn (Some _) (Some (Iter _)) (Some (Iter _)) None None None => length tail < 2
  | mkRsn (Some _) (Some (Iter _)) (Some (Iter _)) (Some _) None None => no_list tail
  | mkRsn (Some _) (Some (Iter _)) (Some (Iter _)) (Some _) (Some (Iter _)) None => length tail < 4
  | mkRsn (Some _) (Some (Iter _)) (Some (Iter _)) (Some _) (Some (Iter _)) (Some _) => True
  | _ => False
  end.
End Spec.

(** ** Management frame protection: bit 6 MFPR (required), bit 7 MFPC (capable) of the RSN
    capabilities, 9.4.2.24.4 *)
Definition mfpr (caps : N) : bool := N.testbit caps 6.
Definition mfpc (caps : N) : bool := N.testbit caps 7.
(** neither requires what the other cannot do *)
Definition compatible (x y : OptionalFeatureConfig) : Prop :=
  (of_is_required x = true -> of_is_capable y = true) /\ (of_is_required y = true -> of_is_capable x = true).

(** ** What is read back *)
Definition received (v : RsnView) : Rsn :=
  mkRsn (v_group v) (option_map (fun l => Iter (concat (map enc_cipher l))) (v_pairwise v))
    (option_map (fun l => Iter (concat (map enc_akm l))) (v_akm v)) (v_caps v)
    (option_map (fun l => Iter (concat l)) (v_pmkids v)) (v_group_mgmt v).

(** values made with the builder methods from the empty element *)
Inductive built : Rsn -> Prop :=
| built_new : built rsn_new
| built_group x g : built x -> built (with_group_data_cipher_suite x g)
| built_pairwise x l : built x -> built (with_pairwise_cipher_suite_list x l)
| built_akm x l : built x -> built (with_akm_list x l)
| built_caps x c : built x -> built (with_rsn_capabilities x c)
| built_pmkids x l : built x -> built (with_pmkid_list x l)
| built_group_mgmt x g : built x -> built (with_group_management_cipher_suite x g).

(** ** Histories of builder calls *)
Inductive RsnCall :=
| SetGroup (g : CipherSuite) | SetPairwise (l : list CipherSuite) | SetAkm (l : list AkmType)
| SetCaps (c : N) | SetPmkids (l : list bytes) | SetGroupMgmt (g : CipherSuite).
Definition rsn_call (x : Rsn) (c : RsnCall) : Rsn :=
  match c with
  | SetGroup g => with_group_data_cipher_suite x g
  | SetPairwise l => with_pairwise_cipher_suite_list x l
  | SetAkm l => with_akm_list x l
  | SetCaps c => with_rsn_capabilities x c
  | SetPmkids l => with_pmkid_list x l
  | SetGroupMgmt g => with_group_management_cipher_suite x g
  end.
(** position of the field of a call in the element *)
Definition call_field (c : RsnCall) : nat :=
  match c with SetGroup _ => 0 | SetPairwise _ => 1 | SetAkm _ => 2 | SetCaps _ => 3 | SetPmkids _ => 4 | SetGroupMgmt _ => 5 end.
(** the argument of the last call that gives one *)
Definition last_given {A} (arg : RsnCall -> option A) (calls : list RsnCall) : option A :=
  fold_left (fun o c => match arg c with Some a => Some a | None => o end) calls None.
(** The field at position [n] after [calls]: what was given last; if nothing was given, the default if a later
    field is there, and otherwise nothing. *)
Definition field_after {A} (arg : RsnCall -> option A) (n : nat) (default : A) (calls : list RsnCall) : option A :=
  match last_given arg calls with
  | Some a => Some a
  | None => if existsb (fun c => n <? call_field c) calls then Some default else None
  end.
Definition arg_group (c : RsnCall) := match c with SetGroup g => Some g | _ => None end.
Definition arg_pairwise (c : RsnCall) := match c with SetPairwise l => Some (@Arr CipherSuite l) | _ => None end.
Definition arg_akm (c : RsnCall) := match c with SetAkm l => Some (@Arr AkmType l) | _ => None end.
Definition arg_caps (c : RsnCall) := match c with SetCaps n => Some n | _ => None end.
Definition arg_pmkids (c : RsnCall) := match c with SetPmkids l => Some (@Arr bytes l) | _ => None end.
Definition arg_group_mgmt (c : RsnCall) := match c with SetGroupMgmt g => Some g | _ => None end.
