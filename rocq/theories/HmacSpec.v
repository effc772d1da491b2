(** RFC 2104, section 2: HMAC over a hash H with blocks of B bytes. *)
From Verif Require Import Base.

Definition hmac_key (B : nat) (H : list Z -> list Z) (key : list Z) : list Z :=
  let k := if Nat.ltb B (length key) then H key else key in k ++ repeat 0 (B - length k).
Definition HMAC (B : nat) (H : list Z -> list Z) (key text : list Z) : list Z :=
  let K := hmac_key B H key in
  H (xorl K (repeat 0x5C B) ++ H (xorl K (repeat 0x36 B) ++ text)).
