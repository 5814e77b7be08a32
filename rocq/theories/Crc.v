(** CRC-32 ([crc32fast::hash], dependency) and the frame check sequence. *)
From Verif Require Import Base.

(** [crc32fast::hash]: the reflected CRC-32 of IEEE 802.3 (polynomial 0xEDB88320, initial
    value and final XOR 0xFFFFFFFF). Dependency modelled from its documentation. *)
Definition crc_poly : N := 0xEDB88320.
Definition crc_ones : N := 0xFFFFFFFF.
Definition crc_bit (c : N) : N :=
  if N.odd c then N.lxor (N.div2 c) crc_poly else N.div2 c.
Definition crc_byte (c b : N) : N := Nat.iter 8 crc_bit (N.lxor c b).
Definition crc_bytes (c : N) (bs : bytes) : N := fold_left crc_byte bs c.
Definition crc32 (bs : bytes) : N := N.lxor (crc_bytes crc_ones bs) crc_ones.

Section Fcs.
Context {cfg : Cfg}.

(** /repo/src/common/mod.rs:161-171 [strip_and_validate_fcs]; [bytes.len() - 4] underflows
    (and [split_at] panics) for fewer than four bytes. *)
Definition strip_and_validate_fcs (bs : bytes) : Res serr bytes :=
  n <- usub (length bs) 4 ;;
  let slice_without_fcs := firstn n bs in
  let fcs := skipn n bs in
  v <- pread (rd_le 4) fcs 0 ;;
  if (v =? crc32 slice_without_fcs)%N then Ok slice_without_fcs else Err BadInput.

(** /repo/src/common/mod.rs:173-176 [attach_fcs]: new buffer and new offset (the Rust function
    returns the size 4 and advances the offset). *)
Definition attach_fcs (buf : bytes) (off : nat) : Res serr (bytes * nat) :=
  covered <- slice_to buf off ;;
  gwrite (wr_le 4 (crc32 covered)) buf off.
End Fcs.
