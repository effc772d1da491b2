(** RFC 4648, section 4: the Base64 encoding. *)
From Verif Require Import Base.

(** Bits of a byte, most significant first. *)
Definition bits_msb (b : Z) : list bool :=
  [Z.testbit b 7; Z.testbit b 6; Z.testbit b 5; Z.testbit b 4; Z.testbit b 3; Z.testbit b 2; Z.testbit b 1; Z.testbit b 0].
Definition bits_val (l : list bool) : Z := fold_left (fun v b => 2 * v + Z.b2z b) l 0.

(** 6-bit groups, the last one filled with zero bits. *)
Fixpoint groups6 (l : list bool) : list Z :=
  match l with
  | [] => []
  | a :: b :: c :: d :: e :: f :: r => bits_val [a; b; c; d; e; f] :: groups6 r
  | _ => [bits_val (firstn 6 (l ++ repeat false 6))]
  end.

(** Table 1. *)
Definition alphabet (i : Z) : Z :=
  if i <? 26 then 65 + i                 (* A-Z *)
  else if i <? 52 then 97 + (i - 26)     (* a-z *)
  else if i <? 62 then 48 + (i - 52)     (* 0-9 *)
  else if i =? 62 then 43 else 47.       (* + / *)

(** Characters, then '=' up to a multiple of four. *)
Definition rfc4648 (l : list Z) : list Z :=
  let s := map alphabet (groups6 (flat_map bits_msb l)) in
  s ++ repeat 61 (Nat.modulo (4 - Nat.modulo (length s) 4) 4).
