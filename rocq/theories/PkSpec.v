(** Specification side of the public-key code: keys, protocols, encodings. *)
From Coq Require Import Znumtheory.
From Verif Require Import Base MpiModel MpiSpec PkModel.

(** Two parties with contexts [a] and [b] run the key exchange: each computes
    its token, writes it out in [len] bytes, reads the other's, and writes out
    the secret in [len] bytes. *)
Definition dh_exchange (a b : dh) (len : Z) : res (list Z * list Z) :=
  do a <- dh_agree a;
  do b <- dh_agree b;
  do ta <- dh_get_tok a len;
  do tb <- dh_get_tok b len;
  do a <- dh_finalize (dh_set_tok a tb);
  do b <- dh_finalize (dh_set_tok b ta);
  do sa <- dh_get_sec a len;
  do sb <- dh_get_sec b len;
  Ok (sa, sb).

(** FIPS 186-4, 4.1: domain parameters. *)
Definition dsa_domain (p q g : Z) : Prop := prime p /\ prime q /\ (q | p - 1) /\ g ^ q mod p = 1.
(** FIPS 186-4, 4.6: w = s^-1, u1 = z w mod q, u2 = r w mod q,
    v = (g^u1 y^u2 mod p) mod q. *)
Definition dsa_v (p q g y z r w : Z) : Z := ((g ^ (z * w mod q) * y ^ (r * w mod q)) mod p) mod q.

(** RFC 8017, 3.1 and 3.2 (two primes). *)
Definition rsa_valid (n e d : Z) : Prop :=
  exists p q, prime p /\ prime q /\ p <> q /\ n = p * q /\ 0 < e /\ 0 < d /\ (Z.lcm (p - 1) (q - 1) | e * d - 1).
(** RFC 2313, 8.1: encryption block of type [bt] with padding string [ps]. *)
Definition pkcs_block (bt : Z) (ps m : list Z) : list Z := 0 :: bt :: ps ++ 0 :: m.
(** The length in bytes of a modulus. *)
Definition rsa_len (n : Z) : Z := Z.log2 n / 8 + 1.
(** A context holding the numbers n, e, d. *)
Definition rkey (n e d : Z) (pad : padding) : rsa := {| rsa_n := ofZ n; rsa_e := ofZ e; rsa_d := ofZ d; rsa_pad := pad |}.
(** The generator supplies as many bytes as asked for. *)
Definition rnd_ok (rnd : nat -> list Z) : Prop := forall j, bytes (rnd j) /\ length (rnd j) = j.
