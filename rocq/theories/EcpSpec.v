(** How the curve objects of the library hold the points and curves of EcSpec. *)
From Verif Require Import Base MpiModel MpiSpec EcpModel EcSpec.

(** a point in affine coordinates, z = 1; the point at infinity is (1, 1, 0) *)
Definition ept (P : ecpoint) : ecp :=
  match P with
  | None => ecp_zero
  | Some (x, y) => {| ex := ofZ x; ey := ofZ y; ez := ofZ 1 |}
  end.
(** how the coefficient [a] may be stored; the tables of the library hold the
    coefficient 0 as one digit 0 *)
Definition a_rep (am : mpi) (a : Z) : Prop := am = ofZ a \/ a = 0 /\ am = mkmpi false [0].
Definition egrp (p : Z) (am : mpi) (b : Z) (G : ecpoint) (n : Z) : grp :=
  {| gp := ofZ p; ga := am; gb := ofZ b; gg := ept G; gn := ofZ n |}.

(** Two parties with contexts [A] and [B] run the key exchange: each computes
    its public point, takes the other's, and computes the shared point. *)
Definition ecdh_set_peer (c : ecdh) (q : ecp) : ecdh := {| dh_ec := dh_ec c; dh_d := dh_d c; dh_q := q; dh_z := dh_z c |}.
Definition ecdh_exchange (A B : ecdh) : res (ecp * ecp) :=
  do A <- ecdh_agree A;
  do B <- ecdh_agree B;
  do A' <- ecdh_final (ecdh_set_peer A (dh_q B));
  do B' <- ecdh_final (ecdh_set_peer B (dh_q A));
  Ok (dh_z A', dh_z B').

(** FIPS 186-4, 6.1: the generator G has the prime order n. *)
Definition ecdsa_domain (p a b : Z) (G : ecpoint) (n : Z) : Prop :=
  good_curve p a b /\ on_curve p a b G /\ G <> None /\ Znumtheory.prime n /\ 2 < n /\ ec_mul p a n G = None.
(** the x coordinate; 1 for the point at infinity, see [ept] *)
Definition xcoord (P : ecpoint) : Z := match P with None => 1 | Some (x, _) => x end.
(** FIPS 186-4, 6.4 (ANS X9.62, 7.4): the point u1 G + u2 Q, with w = s^-1,
    u1 = z w mod n, u2 = r w mod n *)
Definition ecdsa_point (p a : Z) (G Q : ecpoint) (n z r w : Z) : ecpoint :=
  ec_add p a (ec_mul p a (z * w mod n) G) (ec_mul p a (r * w mod n) Q).
(** the key pair d, Q = d G *)
Definition ekey (p a : Z) (am : mpi) (b : Z) (G : ecpoint) (n d : Z) : ecdsa :=
  {| sa_grp := egrp p am b G n; sa_d := ofZ d; sa_q := ept (ec_mul p a d G) |}.
