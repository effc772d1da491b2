(** Verification of the pair (r, s) for a message under the public key y, for C95. *)
From Verif Require Import Base MpiModel MpiSpec PkModel.
Definition dver (p q g y : Z) (pvt : mpi) (m : list Z) (r s : Z) : res Z :=
  dsa_verify {| dsa_p := ofZ p; dsa_q := ofZ q; dsa_g := ofZ g; dsa_pvt := pvt; dsa_pub := ofZ y |} (ofZ r) (ofZ s) m.
