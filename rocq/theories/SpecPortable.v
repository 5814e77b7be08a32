(** The same program on other machines and in other builds: the byte order of the machine and the arithmetic checks of debug builds. *)
From Verif Require Import Base SpecBase Enums Common Elements ElementTypes Rsn Mgmt Data.

(** the same build for a little endian and for a big endian machine *)
Definition on_little (c : Cfg) : Cfg := {| strict_end := @strict_end c; native_le := true; overflow_checks := @overflow_checks c |}.
Definition on_big (c : Cfg) : Cfg := {| strict_end := @strict_end c; native_le := false; overflow_checks := @overflow_checks c |}.
(** the same machine with and without the checks of debug builds *)
Definition debug (c : Cfg) : Cfg := {| strict_end := @strict_end c; native_le := @native_le c; overflow_checks := true |}.
Definition release (c : Cfg) : Cfg := {| strict_end := @strict_end c; native_le := @native_le c; overflow_checks := false |}.

(** the same function on all machines, in all builds *)
Definition any_machine {A : Type} (f : Cfg -> A) : Prop := forall c, f (on_little c) = f (on_big c).
Definition any_build {A : Type} (f : Cfg -> A) : Prop := forall c, f (debug c) = f (release c).
(** a release build gives what the debug build gives, unless the latter panics *)
Definition or_panics {E A : Type} (f : Cfg -> Res E A) : Prop := forall c, f (debug c) = f (release c) \/ f (debug c) = Panic.

(** a 16 bit number whose two bytes are exchanged *)
Definition swapped (v : N) : N := (256 * (v mod 256) + v / 256)%N.
Definition swapped_header (h : DataHeader) : DataHeader :=
  mkDH (dh_subtype h) (dh_flags h) (swapped (dh_duration h)) (dh_a1 h) (dh_a2 h) (dh_a3 h) (swapped (dh_seq h)) (dh_a4 h) (dh_qos h) (dh_ht h).
Definition swapped_rsn (x : Rsn) : Rsn :=
  mkRsn (rsn_group x) (rsn_pairwise x) (rsn_akm x) (option_map swapped (rsn_caps x)) (rsn_pmkids x) (rsn_group_mgmt x).
Definition swapped_peering (x : MeshPeering) : MeshPeering :=
  mkPeering (mesh_peering_proto_from_bits (swapped (mesh_peering_proto_into_bits (mp_protocol x)))) (swapped (mp_local x)) (mp_rest x) (mp_rest_len x).
(** what is behind the local link ID *)
Definition swapped_links (x : ParsedMeshPeering) : ParsedMeshPeering :=
  mkParsed (pp_protocol x) (pp_local x) (option_map swapped (pp_peer x))
    (option_map (fun r => reason_from_bits (swapped (reason_into_bits r))) (pp_reason x)) (pp_pmk x).
