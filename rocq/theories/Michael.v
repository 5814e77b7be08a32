(** The Michael message integrity code: /repo/src/crypto/michael.rs. *)
From Verif Require Import Base.
Local Open Scope N_scope.

(** [u32] operations of Rust: shifts, rotations, wrapping addition *)
Definition u32_shl (x k : N) : N := N.shiftl x k mod 2 ^ 32.
Definition u32_rotl (x k : N) : N := N.lor (u32_shl x k) (N.shiftr x (32 - k)).
Definition u32_rotr (x k : N) : N := N.lor (N.shiftr x k) (u32_shl x (32 - k)).
Definition u32_wrapping_add (x y : N) : N := (x + y) mod 2 ^ 32.
(** michael.rs:1-3 *)
Definition xswap (l : N) : N :=
  N.lor (N.shiftr (N.land l 0xff00ff00) 8) (u32_shl (N.land l 0x00ff00ff) 8).
(** michael.rs:5-15 *)
Definition michael_block_function (l r : N) : N * N :=
  let r := N.lxor r (u32_rotl l 17) in
  let l := u32_wrapping_add l r in
  let r := N.lxor r (xswap l) in
  let l := u32_wrapping_add l r in
  let r := N.lxor r (u32_rotl l 3) in
  let l := u32_wrapping_add l r in
  let r := N.lxor r (u32_rotr l 2) in
  let l := u32_wrapping_add l r in
  (l, r).

Section Michael.
Context {cfg : Cfg}.
(** [u32::to_be]: swaps the bytes on little-endian targets, does nothing on big-endian ones *)
Definition u32_to_be (x : N) : N := if native_le then be_val (le_bytes 4 x) else x.
(** michael.rs:24-29, the loop over the full blocks; [i] is the next block, [n] the number of blocks left *)
Fixpoint michael_loop {E} (bs : bytes) (i n : nat) (l r : N) : Res E (N * N) :=
  match n with
  | O => Ok (l, r)
  | S n' =>
    block <- slice_from bs (i * 4) ;;
    block <- slice_to block 4 ;;
    let '(l, r) := michael_block_function (N.lxor l (le_val block)) r in
    michael_loop bs (S i) n' l r
  end.
(** michael.rs:17-44; [block[..left].copy_from_slice(..)] and [block[left] = 0x5a] on four zero bytes;
    [block[left]] panics if there is no such byte *)
Definition michael {E} (key : N) (bs : bytes) : Res E N :=
  let l := u32_to_be (N.shiftr key 32 mod 2 ^ 32) in
  let r := u32_to_be (key mod 2 ^ 32) in
  let blocks := (length bs / 4)%nat in
  let left := (length bs mod 4)%nat in
  '(l, r) <- michael_loop bs 0 blocks l r ;;
  rest <- slice_from bs (blocks * 4) ;;
  rest <- slice_to rest left ;;
  if (4 <=? left)%nat then Panic
  else
    let block := rest ++ 0x5a :: repeat 0 (3 - left) in
    let '(l, r) := michael_block_function (N.lxor l (le_val block)) r in
    let '(l, r) := michael_block_function l r in
    Ok (be_val (le_bytes 4 l ++ le_bytes 4 r)).
End Michael.
