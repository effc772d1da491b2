(** Elliptic curves y^2 = x^3 + a x + b over the integers modulo a prime p, with
    the chord and tangent law (SEC 1, 2.2.1; FIPS 186-4, appendix D).  [None] is
    the point at infinity. *)
From Coq Require Import ZArith Znumtheory.
Open Scope Z_scope.

Definition ecpoint := option (Z * Z).
Definition on_curve (p a b : Z) (P : ecpoint) : Prop :=
  match P with
  | None => True
  | Some (x, y) => 0 <= x < p /\ 0 <= y < p /\ (y * y) mod p = (x * x * x + a * x + b) mod p
  end.
(** a prime field of odd characteristic and a curve without singular point *)
Definition good_curve (p a b : Z) : Prop := prime p /\ 2 < p /\ (4 * (a * a * a) + 27 * (b * b)) mod p <> 0.
(** the inverse modulo a prime (Fermat) *)
Definition minv (p x : Z) : Z := x ^ (p - 2) mod p.
(** the line of slope l through (x1, y1) and (x2, _) meets the curve a third time; mirrored *)
Definition ec_third (p l x1 y1 x2 : Z) : ecpoint :=
  let x3 := (l * l - x1 - x2) mod p in Some (x3, (l * (x1 - x3) - y1) mod p).
Definition ec_add (p a : Z) (P Q : ecpoint) : ecpoint :=
  match P, Q with
  | None, _ => Q
  | _, None => P
  | Some (x1, y1), Some (x2, y2) =>
      if x1 =? x2 then
        if (y1 + y2) mod p =? 0 then None                                   (* Q = -P *)
        else ec_third p ((3 * (x1 * x1) + a) * minv p (2 * y1)) x1 y1 x2    (* Q = P: tangent *)
      else ec_third p ((y2 - y1) * minv p (x2 - x1)) x1 y1 x2               (* chord *)
  end.
Definition ec_neg (p : Z) (P : ecpoint) : ecpoint := match P with None => None | Some (x, y) => Some (x, (- y) mod p) end.
(** k P = P + ... + P, k times *)
Definition ec_mul (p a k : Z) (P : ecpoint) : ecpoint := Z.iter k (ec_add p a P) None.
(** P has odd order: some odd multiple of it is the point at infinity *)
Definition odd_order (p a : Z) (P : ecpoint) : Prop := exists n, 0 < n /\ Z.odd n = true /\ ec_mul p a n P = None.
(** no multiple of P is a point of order two *)
Definition no_order2 (p a : Z) (P : ecpoint) : Prop := forall k x, 0 <= k -> ec_mul p a k P <> Some (x, 0).
