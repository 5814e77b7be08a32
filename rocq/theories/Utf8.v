(** UTF-8 validity, the check made by [core::str::from_utf8] (Rust standard library, not in
    /repo; table 3-7 of the Unicode standard). A [str] is modelled by its bytes. *)
From Verif Require Import Base.
Local Open Scope N_scope.

Definition in_range (lo hi b : N) : bool := (lo <=? b) && (b <=? hi).
Definition cont (b : N) : bool := in_range 0x80 0xbf b.
Fixpoint utf8_valid (bs : bytes) : bool :=
  match bs with
  | [] => true
  | b0 :: r0 =>
      if b0 <? 0x80 then utf8_valid r0 else
      match r0 with
      | [] => false
      | b1 :: r1 =>
          if in_range 0xc2 0xdf b0 then cont b1 && utf8_valid r1 else
          match r1 with
          | [] => false
          | b2 :: r2 =>
              if in_range 0xe0 0xef b0 then
                (if b0 =? 0xe0 then in_range 0xa0 0xbf b1
                 else if b0 =? 0xed then in_range 0x80 0x9f b1 else cont b1)
                && cont b2 && utf8_valid r2
              else match r2 with
                   | [] => false
                   | b3 :: r3 =>
                       in_range 0xf0 0xf4 b0 &&
                       (if b0 =? 0xf0 then in_range 0x90 0xbf b1
                        else if b0 =? 0xf4 then in_range 0x80 0x8f b1 else cont b1)
                       && cont b2 && cont b3 && utf8_valid r3
                   end
          end
      end
  end.

(** [&str] with [StrCtx::Length(n)], scroll *)
Definition rd_str (n : nat) : reader bytes := fun from =>
  if (length from <? n)%nat then Err TooBig
  else if utf8_valid (firstn n from) then Ok (firstn n from, n) else Err BadInput.
