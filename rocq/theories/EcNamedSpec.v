(** The named curves whose numbers are proved to be those of a group of prime
    order: the secp curves of up to 256 bits (identifiers of include/cry/ecp.h). *)
From Verif Require Import Base BytesSpec EcCurvesSpec.

Definition certified : list (Z * curve) :=
  [(0, secp192r1); (1, secp224r1); (2, secp256r1); (5, secp192k1); (6, secp224k1); (7, secp256k1)].

(** FIPS 186-4, 6.4: z is the number of the leftmost N bits of the hash, N the
    bit length of n; of the whole hash if it is not longer. *)
Definition fips_hash (n : Z) (m : list Z) : Z :=
  let N := Z.log2 n + 1 in
  let bits := 8 * Z.of_nat (length m) in
  if N <? bits then be_val m / 2 ^ (bits - N) else be_val m.
