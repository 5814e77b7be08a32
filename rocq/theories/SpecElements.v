(** The element format of IEEE 802.11-2020, 9.4.2.1, independent of the reading and writing
    code. *)
From Verif Require Import Base SpecBase Elements.

(** one element on the air: ID, length, information *)
Definition enc_element (e : RawElement) : bytes :=
  re_type e :: N.of_nat (length (re_slice e)) :: re_slice e.
Definition enc_elements (es : list RawElement) : bytes := concat (map enc_element es).
(** the length fits into its field *)
Definition fits (e : RawElement) : Prop := length (re_slice e) <= 255.

(** no complete element at the front *)
Definition no_element (bs : bytes) : Prop :=
  match bs with
  | _ :: len :: rest => length rest < N.to_nat len
  | _ => True
  end.

(** bytes in front of the body of an element with the given identifier *)
Definition id_prefix (id : ElementID) : bytes :=
  match id with Id _ => [] | ExtId x => [x] | VendorSpecific p => p end.
(** the element with the given identifier and body *)
Definition element (id : ElementID) (body : bytes) : RawElement :=
  mkRaw (match id with Id i => i | ExtId _ => 255 | VendorSpecific _ => 221 end)%N (id_prefix id ++ body).
(** [raw] is an element with this identifier *)
Definition is_element (id : ElementID) (raw : RawElement) : Prop :=
  exists body, raw = element id body.

Section Spec.
Context {cfg : Cfg}.
(** where iteration stops: nothing complete is left, or, for scroll versions that refuse empty
    reads at the end, a final element with empty information *)
Definition iteration_end (tail : bytes) : Prop :=
  no_element tail \/ (strict_end = true /\ exists t, tail = [t; 0%N]).

(** The value behaves as an element with this identifier and body: it announces the length of
    what it writes. *)
Definition writes_element (e : Elem) (id : ElementID) (body : bytes) : Prop :=
  e_id e = id /\ e_measure e = length body /\ Writes (e_write e) body.
Definition item_element (i : ChainItem) (raw : RawElement) : Prop :=
  match i with
  | Typed e => exists id body, writes_element e id body /\ raw = element id body
  | RawItem r => raw = r
  end.
(** the items of a chain in order *)
Fixpoint chain_items (c : Chain) : list ChainItem :=
  match c with ChainEnd i => [i] | ChainLink i n => i :: chain_items n end.
(** byte values are bytes *)
Definition wf_id (id : ElementID) : Prop :=
  match id with Id i => (i < 256)%N | ExtId x => (x < 256)%N | VendorSpecific p => wf_bytes p end.
Definition wf_item (i : ChainItem) : Prop :=
  match i with Typed e => wf_id (e_id e) | RawItem r => (re_type r < 256)%N end.
(** the last item is a typed element *)
Fixpoint typed_end (c : Chain) : Prop :=
  match c with ChainEnd (Typed _) => True | ChainEnd (RawItem _) => False | ChainLink _ n => typed_end n end.

(** the last element of a sequence in front of [tail] is visible *)
Definition end_visible (es : list RawElement) (tail : bytes) : Prop :=
  strict_end = false \/ tail <> [] \/ match rev es with [] => True | e :: _ => re_slice e <> [] end.
(** identifiers of element types: vendor prefixes are not empty *)
Definition lookup_id (id : ElementID) : Prop :=
  match id with VendorSpecific p => p <> [] | _ => True end.
(** what asking for type [t] gives for one element: if it has the identifier of [t], the value
    the parser of [t] reads from its body, if any; otherwise nothing *)
Definition parsed {W R} (t : ElementType W R) (raw : RawElement) (x : option R) : Prop :=
  (exists body, raw = element (et_id t) body /\
    match pread (et_read t) body 0 with Ok v => x = Some v | Err _ => x = None | Panic => False end)
  \/ (~ is_element (et_id t) raw /\ x = None).
Fixpoint somes {A} (l : list (option A)) : list A :=
  match l with [] => [] | Some a :: l' => a :: somes l' | None :: l' => somes l' end.
(** A chain whose items of type [t] are the values [somes os], in this order. *)
Definition holds_values {W R} (t : ElementType W R) (ok : W -> Prop) (items : list ChainItem) (os : list (option W)) : Prop :=
  Forall2 (fun i o => match o with
    | Some w => i = Typed (elem_of t w) /\ ok w /\ (strict_end = false \/ et_measure t w <> 0)
    | None => forall raw, item_element i raw -> ~ is_element (et_id t) raw
    end) items os.

(** A type whose values survive: every admissible [w] is written as a body of the announced
    length, which is read as [conv w]. *)
Definition RoundTrip {W R} (t : ElementType W R) (ok : W -> Prop) (conv : W -> R) : Prop :=
  forall w, ok w -> exists body,
    Writes (et_write t w) body /\ et_measure t w = length body /\ wf_bytes body /\
    ReadsAll (et_read t) body (conv w).
End Spec.

(** A type of fixed size with wire format [enc]: its admissible values correspond one to one to
    the byte strings of that size (those satisfying [canon], for types that ignore reserved
    bits); longer input is read up to the size, shorter input is refused, nothing panics. *)
Record FixedLayout {cfg : Cfg} {A} (t : ElementType A A) (id : ElementID) (size : nat)
    (ok : A -> Prop) (canon : bytes -> Prop) (enc : A -> bytes) : Prop := {
  fl_id : et_id t = id;
  fl_size : forall w, et_measure t w = size;
  fl_write : forall w, ok w ->
    wf_bytes (enc w) /\ length (enc w) = size /\ canon (enc w) /\
    Writes (et_write t w) (enc w) /\ Reads (et_read t) (enc w) w;
  fl_read : forall bs, wf_bytes bs -> length bs = size -> canon bs -> exists w, ok w /\ enc w = bs;
  fl_short : forall bs, length bs < size -> exists e, et_read t bs = Err e;
  fl_no_panic : NoPanic (et_read t)
}.
Definition any_bytes (bs : bytes) : Prop := True.
