(** Vendor specific elements built with a prefix, vendor_specific_element.rs. *)
From Verif Require Import Base Elements Mgmt.

(** vendor_specific_element.rs:85-93, [PrefixedVendorPayload::measure_with] *)
Definition prefixed_measure (prefix : bytes) (payload : Container) : nat := length prefix + c_measure payload.
(** vendor_specific_element.rs:41-53, 66-81, 94-107: [VendorSpecificElement::new_prefixed] as a value of a type implementing [Element];
    the prefix is written by [wr_prefixed] (Elements.v) *)
Definition new_prefixed {cfg : Cfg} (prefix : bytes) (payload : Container) : Elem :=
  mkElem (Id 0xdd) (prefixed_measure prefix payload) (wr_vendor (wr_prefixed prefix (c_write payload))).
