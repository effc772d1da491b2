(** Polynomials over GF(2), a polynomial being the integer whose bit i is the
    coefficient of x^i.  Addition is exclusive or. *)
From Verif Require Import Base.

(** Product. *)
Fixpoint pclmul (a : positive) (b : Z) : Z :=
  match a with
  | xH => b
  | xO a => 2 * pclmul a b
  | xI a => Z.lxor b (2 * pclmul a b)
  end.
Definition clmul (a b : Z) : Z := match a with Zpos p => pclmul p b | _ => 0 end.

(** [r] is the remainder of [a] divided by [g], of degree [w]. *)
Definition is_rem (w : Z) (g a r : Z) : Prop := 0 <= r < 2 ^ w /\ exists q, 0 <= q /\ Z.lxor (clmul q g) r = a.
