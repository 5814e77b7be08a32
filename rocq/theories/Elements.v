(** Element infrastructure: /repo/src/elements/{mod,element_chain,vendor_specific_element}.rs and
    /repo/src/common/read_iterator.rs. *)
From Verif Require Import Base.

(** /repo/src/elements/mod.rs:50-59 *)
Inductive ElementID :=
| Id (id : N)
| ExtId (ext_id : N)
| VendorSpecific (prefix : bytes).

(** mod.rs:68-74 *)
Definition eid_id (e : ElementID) : N :=
  match e with Id i => i | ExtId _ => 255%N | VendorSpecific _ => 221%N end.
(** mod.rs:78-83 *)
Definition eid_ext_id (e : ElementID) : option N :=
  match e with ExtId x => Some x | _ => None end.
(** mod.rs:84-89 *)
Definition eid_vendor_prefix (e : ElementID) : option bytes :=
  match e with VendorSpecific p => Some p | _ => None end.
(** mod.rs:90-99 *)
Definition element_header_length (e : ElementID) : nat :=
  match e with Id _ => 2 | ExtId _ => 3 | VendorSpecific p => 2 + length p end.

(** [RawIEEE80211Element] = [tlv_rs::RawTLV<u8, u8>], mod.rs:44 *)
Record RawElement := mkRaw { re_type : N; re_slice : bytes }.
(** [RawIEEE80211ExtElement], mod.rs:121-124 *)
Record RawExtElement := mkRawExt { rx_ext_id : N; rx_slice : bytes }.

(** [&[u8]::starts_with] *)
Fixpoint starts_with (bs prefix : bytes) {struct prefix} : bool :=
  match prefix, bs with
  | [], _ => true
  | _ :: _, [] => false
  | p :: prefix', b :: bs' => (p =? b)%N && starts_with bs' prefix'
  end.

Section Elements.
Context {cfg : Cfg}.

(** ** [ReadIterator], read_iterator.rs *)
(** read_iterator.rs:62-80: the state is [self.bytes]; result: item and new state *)
Definition iter_next {A} (r : reader A) (st : option bytes) : Res serr (option A * option bytes) :=
  match st with
  | None => Ok (None, None)
  | Some bs =>
      match r bs with
      | Ok (x, n) => rest <- slice_from bs n ;; Ok (Some x, Some rest)
      | Err _ => Ok (None, None)
      | Panic => Panic
      end
  end.
(** [collect()]: calls of [next] up to the first [None]. Running out of fuel stands for
    non-termination and is reported as a panic. *)
Fixpoint iter_collect {A} (fuel : nat) (r : reader A) (st : option bytes) : Res serr (list A) :=
  match fuel with
  | O => Panic
  | S fuel' =>
      '(x, st') <- iter_next r st ;;
      match x with
      | None => Ok []
      | Some x => xs <- iter_collect fuel' r st' ;; Ok (x :: xs)
      end
  end.
(** all items of [ReadIterator::new(bs)] (read_iterator.rs:15-20) *)
Definition iter_all {A} (r : reader A) (bs : bytes) : Res serr (list A) :=
  iter_collect (S (length bs)) r (Some bs).
(** read_iterator.rs:87-89 *)
Definition iter_len (st : option bytes) : nat :=
  match st with Some bs => length bs | None => 0 end.
(** read_iterator.rs:22-27, 28-32 *)
Definition iter_write (st : option bytes) : writer := fun buf =>
  pwrite (wr_bytes (match st with Some bs => bs | None => [] end)) buf 0.
Definition iter_measure (st : option bytes) : nat :=
  length (match st with Some bs => bs | None => [] end).

(** ** TLV, tlv-rs 0.3.0 (dependency) *)
(** [RawTLV::try_from_ctx]: type, length, slice *)
Definition rd_raw_tlv : reader RawElement := fun from =>
  '(ty, off) <- gread rd_u8 from 0 ;;
  '(len, off) <- gread rd_u8 from off ;;
  '(slice, off) <- gread (rd_bytes (N.to_nat len)) from off ;;
  Ok (mkRaw ty slice, off).
(** [TLV::try_into_ctx]: type, length as announced by [measure_with], payload *)
Definition wr_tlv (ty : N) (measure : nat) (payload : writer) : writer := fun buf =>
  if 255 <? measure then Err BadInput
  else wseq [wr_u8 ty; wr_u8 (N.of_nat measure); payload] buf.
(** [RawTLV::try_into_ctx] *)
Definition wr_raw_tlv (e : RawElement) : writer :=
  wr_tlv (re_type e) (length (re_slice e)) (wr_bytes (re_slice e)).

(** mod.rs:125-135; the reported size is 1 although the slice is the rest *)
Definition rd_raw_ext : reader RawExtElement := fun from =>
  '(ext_id, off) <- gread rd_u8 from 0 ;;
  slice <- slice_from from off ;;
  Ok (mkRawExt ext_id slice, off).
(** mod.rs:136-150 *)
Definition raw_ext_measure (e : RawExtElement) : nat := length (rx_slice e) + 1.
Definition wr_raw_ext (e : RawExtElement) : writer := wseq [wr_u8 (rx_ext_id e); wr_bytes (rx_slice e)].
(** mod.rs:174-189 *)
Definition wr_typed_ext (ext_id : N) (payload : writer) : writer := wseq [wr_u8 ext_id; payload].

(** ** Vendor specific elements, vendor_specific_element.rs *)
(** vendor_specific_element.rs:54-65; the payload includes the prefix *)
Definition rd_vendor : reader bytes := fun from => Ok (from, length from).
(** vendor_specific_element.rs:25-31 *)
Definition get_payload_if_prefix_matches (payload prefix : bytes) : option bytes :=
  if starts_with payload prefix then Some (skipn (length prefix) payload) else None.
(** vendor_specific_element.rs:97-107 *)
Definition wr_prefixed (prefix : bytes) (payload : writer) : writer := wseq [wr_bytes prefix; payload].
(** vendor_specific_element.rs:66-75 *)
Definition wr_vendor (payload : writer) : writer := wseq [payload].

(** ** A value of a type implementing [Element]: what the containers use of it,
    mod.rs:103-114 *)
Record Elem := mkElem { e_id : ElementID; e_measure : nat; e_write : writer }.
(** A type implementing [Element] with its [ReadType]; [W] are the values written, [R] the
    values read. *)
Record ElementType (W R : Type) := mkET {
  et_id : ElementID;
  et_measure : W -> nat;
  et_write : W -> writer;
  et_read : reader R
}.
Global Arguments mkET {W R}.
Global Arguments et_id {W R}.
Global Arguments et_measure {W R}.
Global Arguments et_write {W R}.
Global Arguments et_read {W R}.
Definition elem_of {W R} (t : ElementType W R) (w : W) : Elem :=
  mkElem (et_id t) (et_measure t w) (et_write t w).

(** mod.rs:310-315 *)
Definition wrapped_measure (e : Elem) : nat := element_header_length (e_id e) + e_measure e.
(** mod.rs:316-351 *)
Definition wr_wrapped (e : Elem) : writer := fun buf =>
  match e_id e with
  | Id id => pwrite (wr_tlv id (e_measure e) (e_write e)) buf 0
  | ExtId x => pwrite (wr_tlv 255 (e_measure e + 1) (wr_typed_ext x (e_write e))) buf 0
  | VendorSpecific p =>
      pwrite (wr_tlv 221 (length p + e_measure e) (wr_vendor (wr_prefixed p (e_write e)))) buf 0
  end.

(** ** [ReadElements], mod.rs:199-302 *)
(** mod.rs:204-226. The nested readers do not panic (shown in ElementsFacts). *)
Definition element_id_matches (raw : RawElement) (id : ElementID) : bool :=
  match id with
  | Id i => (i =? re_type raw)%N
  | ExtId x =>
      if (re_type raw =? 255)%N then
        match pread rd_raw_ext (re_slice raw) 0 with
        | Ok ext => (x =? rx_ext_id ext)%N
        | _ => false
        end
      else false
  | VendorSpecific prefix =>
      if (re_type raw =? 221)%N then
        match pread rd_vendor (re_slice raw) 0 with
        | Ok payload => starts_with payload prefix
        | _ => false
        end
      else false
  end.
(** mod.rs:230-247: the bytes handed to the parser of the element type *)
Definition raw_element_body (id : ElementID) (raw : RawElement) : Res serr (option bytes) :=
  match id with
  | Id _ => Ok (Some (re_slice raw))
  | ExtId _ =>
      ext <- res_ok (pread rd_raw_ext (re_slice raw) 0) ;;
      Ok (option_map rx_slice ext)
  | VendorSpecific prefix =>
      v <- res_ok (pread rd_vendor (re_slice raw) 0) ;;
      match v with
      | None => Ok None
      | Some payload => b <- slice_from payload (length prefix) ;; Ok (Some b)
      end
  end.
Definition parse_raw_element {W R} (t : ElementType W R) (raw : RawElement) : Res serr (option R) :=
  body <- raw_element_body (et_id t) raw ;;
  match body with
  | None => Ok None
  | Some b => res_ok (pread (et_read t) b 0)
  end.
(** mod.rs:249-251 *)
Definition raw_elements (bs : bytes) : Res serr (list RawElement) := iter_all rd_raw_tlv bs.
(** mod.rs:254-260 *)
Definition get_matching_elements_raw (bs : bytes) (id : ElementID) : Res serr (list RawElement) :=
  rmap (filter (fun raw => element_id_matches raw id)) (raw_elements bs).
(** The lazy pipeline [iterator.filter_map(f)], collected; [f] may panic. *)
Fixpoint filter_map_res {A B} (f : A -> Res serr (option B)) (l : list A) : Res serr (list B) :=
  match l with
  | [] => Ok []
  | a :: l' =>
      b <- f a ;;
      bs <- filter_map_res f l' ;;
      Ok (match b with Some b => b :: bs | None => bs end)
  end.
Definition match_and_parse {W R} (t : ElementType W R) (raw : RawElement) : Res serr (option R) :=
  if element_id_matches raw (et_id t) then parse_raw_element t raw else Ok None.
(** mod.rs:262-272 *)
Definition get_matching_elements {W R} (t : ElementType W R) (bs : bytes) : Res serr (list R) :=
  raws <- raw_elements bs ;; filter_map_res (match_and_parse t) raws.
(** mod.rs:275-280 *)
Definition get_first_element_raw (bs : bytes) (id : ElementID) : Res serr (option RawElement) :=
  raws <- raw_elements bs ;; Ok (find (fun raw => element_id_matches raw id) raws).
(** First item of the pipeline; elements behind it are not looked at. *)
Fixpoint find_map_res {A B} (f : A -> Res serr (option B)) (l : list A) : Res serr (option B) :=
  match l with
  | [] => Ok None
  | a :: l' => b <- f a ;; match b with Some b => Ok (Some b) | None => find_map_res f l' end
  end.
(** mod.rs:282-284. The iteration over the raw elements never panics (ElementsFacts), so
    collecting them first is observably the same as the lazy iteration. *)
Definition get_first_element {W R} (t : ElementType W R) (bs : bytes) : Res serr (option R) :=
  raws <- raw_elements bs ;; find_map_res (match_and_parse t) raws.
(** mod.rs:286-302 *)
Definition rd_elements : reader bytes := fun from => Ok (from, length from).
Definition wr_elements (bs : bytes) : writer := fun buf => pwrite (wr_bytes bs) buf 0.

(** ** Chains, element_chain.rs *)
Inductive ChainItem :=
| Typed (e : Elem)
| RawItem (e : RawElement).
(** element_chain.rs:39-42, 96-101 *)
Inductive Chain :=
| ChainEnd (inner : ChainItem)
| ChainLink (inner : ChainItem) (next : Chain).
(** element_chain.rs:53-58, 105-110 *)
Fixpoint chain_append (c : Chain) (value : ChainItem) : Chain :=
  match c with
  | ChainEnd i => ChainLink i (ChainEnd value)
  | ChainLink i n => ChainLink i (chain_append n value)
  end.
(** element_chain.rs:61-74, 113-132 *)
Fixpoint chain_measure (c : Chain) : nat :=
  match c with
  | ChainEnd (Typed e) => element_header_length (e_id e) + e_measure e
  | ChainEnd (RawItem e) => length (re_slice e)
  | ChainLink (Typed e) n => element_header_length (e_id e) + e_measure e + chain_measure n
  | ChainLink (RawItem e) n => length (re_slice e) + 2 + chain_measure n
  end.
(** element_chain.rs:76-91, 134-161 *)
Fixpoint wr_chain (c : Chain) : writer :=
  match c with
  | ChainEnd (Typed e) => fun buf => pwrite (wr_wrapped e) buf 0
  | ChainEnd (RawItem e) => fun buf => pwrite (wr_raw_tlv e) buf 0
  | ChainLink (Typed e) n => wseq [wr_wrapped e; wr_chain n]
  | ChainLink (RawItem e) n => wseq [wr_raw_tlv e; wr_chain n]
  end.
(** [element_chain!], element_chain.rs:175-199; the empty chain is [Empty] and separate *)
Fixpoint chain_of (i : ChainItem) (l : list ChainItem) : Chain :=
  match l with [] => ChainEnd i | j :: l' => ChainLink i (chain_of j l') end.
End Elements.
