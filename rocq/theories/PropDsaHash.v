(** C81: the hash in a DSA signature. *)
From Coq Require Import Znumtheory.
From Verif Require Import Base BytesSpec MpiModel MpiSpec MpiTextSpec PkModel PkSpec EcNamedSpec DsaHash PropPk.

(** The leftmost bits are taken as in FIPS 186-4 if the length of q is a multiple
    of 64 bits, or if the hash is not longer than q. *)
Theorem C81_sign_partial : forall p q g x y r0 s0 bin m, 1 < p -> prime q -> q < 2 ^ 512 -> draw_for q bin -> bytes m ->
  (Z.log2 q + 1) mod 64 = 0 \/ 8 * Z.of_nat (length m) <= Z.log2 q + 1 ->
  exists k ki, 0 < k < q /\ (k * ki) mod q = 1 /\
  let r := (g ^ k mod p) mod q in
  dsa_sign {| dsa_p := ofZ p; dsa_q := ofZ q; dsa_g := ofZ g; dsa_pvt := ofZ x; dsa_pub := y |} r0 s0 bin m = Ok (0, ofZ r, ofZ (((x * r + fips_hash q m) * ki) mod q)).
Proof. exact dsa_hash. Qed.
Print Assumptions C81_sign_partial.
Theorem C81_verify_partial : forall p q g pvt y m r s, 1 < p -> 1 < q -> bytes m ->
  (Z.log2 q + 1) mod 64 = 0 \/ 8 * Z.of_nat (length m) <= Z.log2 q + 1 -> Z.gcd s q = 1 ->
  exists w, 0 <= w < q /\ (s * w) mod q = 1 /\
  dsa_verify {| dsa_p := ofZ p; dsa_q := ofZ q; dsa_g := ofZ g; dsa_pvt := pvt; dsa_pub := ofZ y |} (ofZ r) (ofZ s) m =
  Ok (if dsa_v p q g y (fips_hash q m) r w =? Z.abs r then 0 else -1).
Proof. exact dsa_hash_verify. Qed.
Print Assumptions C81_verify_partial.
(** In every other case there is a hash of that length for which no signature,
    whatever the key and the nonce, is the one of the standard. *)
Theorem C81_refuted : forall q len, prime q -> q < 2 ^ 512 -> (Z.log2 q + 1) mod 64 <> 0 -> Z.log2 q + 1 < 8 * Z.of_nat len ->
  exists m, bytes m /\ length m = len /\ forall p g x y r0 s0 bin, 1 < p -> draw_for q bin ->
  exists k ki s, 0 < k < q /\ (k * ki) mod q = 1 /\
  let r := (g ^ k mod p) mod q in
  dsa_sign {| dsa_p := ofZ p; dsa_q := ofZ q; dsa_g := ofZ g; dsa_pvt := ofZ x; dsa_pub := y |} r0 s0 bin m = Ok (0, ofZ r, ofZ s) /\
  s <> ((x * r + fips_hash q m) * ki) mod q.
Proof. exact dsa_hash_differs. Qed.
Print Assumptions C81_refuted.
(** q of 12 bits: one byte is signed as prescribed, two bytes are not. *)
Example C81_ex : prime 3329 /\ (Z.log2 3329 + 1) mod 64 = 12 /\ 8 * Z.of_nat (length [171]) <= Z.log2 3329 + 1 /\ Z.log2 3329 + 1 < 8 * Z.of_nat 2 /\
  draw_for 3329 [9; 77] /\ fips_hash 3329 [171; 205] = 2748.
Proof.
  split; [exact prime_3329|]. split; [reflexivity|]. split; [discriminate|]. split; [reflexivity|]. split; [|reflexivity].
  split; [constructor; [red; lia|constructor; [red; lia|constructor]]|reflexivity].
Qed.
