(** Public keys and message numbers of ECDSA, for C91. *)
From Verif Require Import Base BytesSpec MpiModel MpiSpec EcSpec.

(** a point of the curve whose order divides n (FIPS 186-4, 6.2.1) *)
Definition public_point (p a b n : Z) (Q : ecpoint) : Prop := on_curve p a b Q /\ ec_mul p a n Q = None.
(** the number that stands for a message: its first bytes, as many as the digits of n
    hold *)
Definition msg_num (n : Z) (m : list Z) : Z := be_val (firstn (8 * used (ofZ n)) m).
