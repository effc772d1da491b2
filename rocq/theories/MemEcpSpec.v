(** Vocabulary of the memory-level statements on curve points.  A point is named
    by the number of its first coordinate, a group by that of its modulus. *)
From Verif Require Import Base MpiModel MpiSpec EcpModel EcSpec EcpSpec MemModel MemSpec.

(** The point object [x] holds [P] in affine coordinates, or (1, 1, 0). *)
Definition point (s : st) (x : nat) (P : ecpoint) : Prop :=
  has s x (ex (ept P)) /\ has s (x + 1) (ey (ept P)) /\ has s (x + 2) (ez (ept P)).
(** Its three coordinates are initialised. *)
Definition usable_pt (s : st) (x : nat) : Prop := usable s x /\ usable s (x + 1) /\ usable s (x + 2).
(** Two point objects are the same or disjoint. *)
Definition same_or_apart (x y : nat) : Prop := (x = y \/ x + 2 < y \/ y + 2 < x)%nat.
(** The group object [g] holds the curve y^2 = x^3 + a x + b modulo p, the base
    point G and its order N. *)
Definition group (s : st) (g : nat) (p : Z) (am : mpi) (b : Z) (G : ecpoint) (N : Z) : Prop :=
  has s g (ofZ p) /\ has s (g + 1) am /\ has s (g + 2) (ofZ b) /\ point s (g + 3) G /\ has s (g + 6) (ofZ N).
(** Outcome of a call with the point [r] as destination: return code 0, [r]
    holds [P], the other objects of the caller have not changed, nothing is
    leaked. *)
Definition result (n r : nat) (P : ecpoint) (s : st) (rc : Z) (s' : st) : Prop :=
  rc = 0 /\ point s' r P /\ calm n s' /\ (tick s <= tick s')%nat /\
  (forall x, (x < n)%nat -> ~ (r <= x < r + 3)%nat -> mem s' x = mem s x).
(** The eleven objects of an ECDSA context: group [g], private key [d], public
    point [q]. *)
Definition in_ctx (g d q x : nat) : Prop := (g <= x < g + 7 \/ x = d \/ q <= x < q + 3)%nat.
Definition ctx_apart (g d q : nat) : Prop :=
  ~ (g <= d < g + 7)%nat /\ ~ (q <= d < q + 3)%nat /\ (g + 6 < q \/ q + 2 < g)%nat.
(** A context fresh from initialisation: zeros and points at infinity. *)
Definition ctx_zero (s : st) (g d q : nat) : Prop :=
  has s g mzero /\ has s (g + 1) mzero /\ has s (g + 2) mzero /\ has s (g + 6) mzero /\ point s (g + 3) None /\
  has s d mzero /\ point s q None.
(** Sample state: the group at 0 to 6 is y^2 = x^3 + x + 19 modulo 23 with the base
    point (2, 11) of order 19; a point (x, y) at 7 to 9, numbers at 10 to 12. *)
Definition one_digit (v : Z) : obj := mkobj false 1 [v].
Definition sample (x y d r s : Z) : st :=
  mkst (fun i => nth_error (map one_digit [23; 1; 19; 2; 11; 1; 19; x; y; 1; d; r; s]) i) 0.
(** All allocations but those numbered in [l] are granted. *)
Definition but (l : list nat) : env := mkenv (fun i => negb (existsb (Nat.eqb i) l)) (fun _ i => Z.of_nat i + 17).
(** No object of the caller has changed, nothing is leaked. *)
Definition untouched (n : nat) (s s' : st) : Prop := calm n s' /\ (forall x, (x < n)%nat -> mem s' x = mem s x).
