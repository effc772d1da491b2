(** Specification side of prime and key generation. *)
From Coq Require Import Znumtheory.
From Verif Require Import Base BytesSpec MpiModel MpiSpec MpiTextSpec MpiIOModel KeygenModel.

(** The generator supplies as many bytes as it is asked for. *)
Definition source_ok (s : src) : Prop := forall l n, bytes (byt s l n) /\ length (byt s l n) = n.
(** [P] was found prime by the test, with some five draws. *)
Definition accepted (P : Z) : Prop := exists d1 d2 d3 d4 d5,
  Forall (draw_for P) [d1; d2; d3; d4; d5] /\ is_prime (ofZ P) d1 d2 d3 d4 d5 = Ok true.
(** The bytes for a number of [bits] bits do not start with a whole digit of
    zeros. *)
Definition full (bits : Z) (bin : list Z) : Prop := 2 ^ (64 * ((bits - 1) / 64)) <= be_val bin.
(** The bytes a search for a prime of [bits] bits draws at its try [i]. *)
Definition try_bytes (s : src) (bits : Z) (i : nat) : list Z := byt s [i; O] (Z.to_nat ((bits + 7) / 8)).
(** The bytes round [j] of the primality test draws for [P] at try [i]. *)
Definition round_bytes (s : src) (P : Z) (i j : nat) : list Z := byt s [i; j] (Z.to_nat ((Z.log2 P + 8) / 8)).
(** [P] has [bits] bits, the two top ones and the lowest one set. *)
Definition shaped (bits P : Z) : Prop := 3 * 2 ^ (bits - 2) <= P < 2 ^ bits /\ Z.odd P = true.
(** The number a search makes of the [bits/8] bytes of value [v]: the two top bits
    and the lowest one are set. *)
Definition forced (bits v : Z) : Z := Z.lor v (3 * 2 ^ (bits - 2) + 1).
(** How many tries a search has. *)
Definition itermax_of (iter : option nat) : nat := match iter with Some n => n | None => Z.to_nat 5000 end.

(** A search for a prime of [bits] bits, as the RSA key generation makes it,
    reports success with [P]. *)
Definition found (s : src) (bits P : Z) : Prop := exists p0 i, mprime s bits (Some (Z.to_nat 10000)) p0 = Ok (0, ofZ P, i).
(** The totient of a product of two primes. *)
Definition phi (P Q : Z) : Z := (P - 1) * (Q - 1).
(** What a generated RSA key should be: two different numbers found prime, their
    product of the size asked for, and a public exponent invertible modulo the
    totient, which is [e] if that is not zero. *)
Definition rsa_good (bits e : Z) (k : rsakey) : Prop := exists P Q E,
  rk_p k = ofZ P /\ rk_q k = ofZ Q /\ rk_n k = ofZ (P * Q) /\ rk_e k = ofZ E /\
  accepted P /\ accepted Q /\ 1 < P /\ 1 < Q /\ Z.odd P = true /\ Z.odd Q = true /\ P <> Q /\
  Z.log2 (P * Q) + 1 = bits /\ 0 <= E /\ (e <> 0 -> E = e) /\ (0 < E -> Z.gcd E (phi P Q) = 1).
(** Round [u] of the key generation finds two primes and has to be repeated. *)
Definition rsa_rejected (s : src) (bits e : Z) (u : nat) : Prop := exists P Q,
  found (at_ (at_ s u) 0) (bits / 2) P /\ found (at_ (at_ s u) 1) (bits / 2) Q /\
  (P = Q \/ Z.log2 (P * Q) + 1 <> bits \/
   exists E, (e <> 0 -> E = e) /\ (E = 0 \/ Z.gcd E (phi P Q) <> 1)).

(** What a generated DSA key is: q and p found prime, of at most the sizes asked
    for, 2q dividing p-1; g a power h^((p-1)/q) different from 0 and 1; the
    private key below (p-1)/q, the public key g to its power. *)
Definition dsa_made (qbits pbits P Q G X : Z) : Prop :=
  accepted Q /\ Z.odd Q = true /\ 1 < Q < 2 ^ qbits /\
  accepted P /\ (2 * Q | P - 1) /\ 1 < P < 2 ^ pbits /\
  (exists h, 0 < h < P /\ G = h ^ ((P - 1) / Q) mod P) /\ 1 < G < P /\
  0 <= X < (P - 1) / Q.
