(** C86 and C87: numbers and points from outside that nobody checks, in the
    ElGamal verification and in the two key agreements. *)
From Coq Require Import Znumtheory.
From Verif Require Import Base BytesSpec MpiModel MpiIOModel MpiSpec MpiTextSpec PkModel PkSpec NumTh Pk Rsa Rsa2 EgForge EcpModel EcSpec EcZ EcpSpec Ecp EcPk EcCurvesModel EcCurvesSpec EcCurves EcNamedSpec EcNamed EcOrder Peer.
From Verif Require Cert256r1.

(** * C86: ElGamal signatures cannot be made without the private key.  For r in
    its range, r = g^k mod p, and g a primitive root, verification is exact: it
    accepts the solutions s of the signing equation and nothing else. *)
Theorem C86_exact : forall p g d k s m c, prime p -> (forall e, 0 <= e -> g ^ e mod p = 1 -> (p - 1 | e)) -> ~ (p | g) -> 0 <= d -> 0 <= k -> 0 <= s -> bytes m -> Z.of_nat (length m) <= rsa_len p ->
  let r := g ^ k mod p in
  eg_verify2 {| eg_p := ofZ p; eg_g := ofZ g; eg_y := ofZ (g ^ d mod p); eg_d := c |} (ofZ r) (ofZ s) m = Ok 0 <-> (d * r + k * s) mod (p - 1) = be_val m mod (p - 1).
Proof. intros p g d k s m c P. rewrite <- (mlen_len p (prime_pos p P)). revert P. exact (eg_signing p g d k s m c). Qed.
Print Assumptions C86_exact.
Lemma prime_23 : prime 23.
Proof. apply prime_intro; [lia|]. intros n Hn. apply Zgcd_1_rel_prime. assert (C : n = 1 \/ n = 2 \/ n = 3 \/ n = 4 \/ n = 5 \/ n = 6 \/ n = 7 \/ n = 8 \/ n = 9 \/ n = 10 \/ n = 11 \/ n = 12 \/ n = 13 \/ n = 14 \/ n = 15 \/ n = 16 \/ n = 17 \/ n = 18 \/ n = 19 \/ n = 20 \/ n = 21 \/ n = 22) by lia.
  repeat (destruct C as [->|C]; [reflexivity|]). subst. reflexivity. Qed.
Lemma root_23 : forall e, 0 <= e -> 5 ^ e mod 23 = 1 -> (23 - 1 | e).
Proof.
  intros e He E. rewrite (pow_period 5 22 23 e (e mod 22)) in E by (try reflexivity; try lia; try (apply Z.mod_pos_bound; lia); rewrite Zmod_mod; reflexivity).
  pose proof (Z.mod_pos_bound e 22 ltac:(lia)) as B. apply Zmod_divide; [lia|]. change (23 - 1) with 22. set (u := e mod 22) in *. clearbody u.
  assert (C : u = 0 \/ u = 1 \/ u = 2 \/ u = 3 \/ u = 4 \/ u = 5 \/ u = 6 \/ u = 7 \/ u = 8 \/ u = 9 \/ u = 10 \/ u = 11 \/ u = 12 \/ u = 13 \/ u = 14 \/ u = 15 \/ u = 16 \/ u = 17 \/ u = 18 \/ u = 19 \/ u = 20 \/ u = 21) by lia.
  destruct C as [C|C]; [exact C|exfalso]. repeat (destruct C as [->|C]; [vm_compute in E; discriminate|]). subst. vm_compute in E. discriminate.
Qed.
Lemma not_23 x : 0 < x < 23 -> ~ (23 | x).
Proof. intros H D. apply Z.divide_pos_le in D; lia. Qed.
(** the key 9 on p = 23, g = 5: s = 1 is the signature of the byte 6 with k = 7 *)
Example C86_exact_ex : (prime 23 /\ (forall e, 0 <= e -> 5 ^ e mod 23 = 1 -> (23 - 1 | e)) /\ ~ (23 | 5) /\ 1 <= rsa_len 23) /\ 5 ^ 7 mod 23 = 17 /\
  eg_verify2 {| eg_p := ofZ 23; eg_g := ofZ 5; eg_y := ofZ (5 ^ 9 mod 23); eg_d := ofZ 0 |} (ofZ (5 ^ 7 mod 23)) (ofZ 1) [6] = Ok 0 /\
  eg_verify2 {| eg_p := ofZ 23; eg_g := ofZ 5; eg_y := ofZ (5 ^ 9 mod 23); eg_d := ofZ 0 |} (ofZ (5 ^ 7 mod 23)) (ofZ 2) [6] <> Ok 0.
Proof.
  assert (B : bytes [6]) by (repeat constructor; unfold byte; lia).
  split; [split; [exact prime_23|split; [exact root_23|split; [apply not_23; lia|vm_compute; discriminate]]]|]. split; [reflexivity|].
  split.
  - apply (C86_exact 23 5 9 7 1 [6]); try exact root_23; try exact prime_23; try exact B; try lia; [apply not_23; lia|vm_compute; discriminate|reflexivity].
  - intro E. apply (C86_exact 23 5 9 7 2 [6]) in E; try exact root_23; try exact prime_23; try exact B; try lia; [discriminate|apply not_23; lia|vm_compute; discriminate].
Qed.
(** But r is not checked to be below p.  From the public key p, g, y alone, the
    numbers below are a signature of any message. *)
Theorem C86_forge_refuted : forall p g y d m, prime p -> ~ (p | g) -> ~ (p | y) -> bytes m -> Z.of_nat (length m) <= rsa_len p ->
  let x := (g * y) mod p in
  let r := x + p * ((- be_val m - x) mod (p - 1)) in
  let s := be_val m in
  eg_verify2 {| eg_p := ofZ p; eg_g := ofZ g; eg_y := ofZ y; eg_d := d |} (ofZ r) (ofZ s) m = Ok 0.
Proof. intros p g y d m P. rewrite <- (mlen_len p (prime_pos p P)). revert P. exact (eg_forge p g y d m). Qed.
Print Assumptions C86_forge_refuted.
Example C86_forge_ex : eg_verify2 {| eg_p := ofZ 23; eg_g := ofZ 5; eg_y := ofZ 11; eg_d := ofZ 0 |} (ofZ (9 + 23 * 7)) (ofZ 6) [6] = Ok 0.
Proof. apply (C86_forge_refuted 23 5 11 (ofZ 0) [6] prime_23); [apply not_23; lia|apply not_23; lia|repeat constructor; unfold byte; lia|vm_compute; discriminate]. Qed.
(** The message is taken as a number and not hashed: with all numbers in range,
    and through the entry taking bytes, the public key gives a message and its
    signature. *)
Theorem C86_exist_refuted : forall p g y d, prime p -> ~ (p | g) -> ~ (p | y) ->
  let L := Z.to_nat (rsa_len p) in
  let r := (g * y) mod p in
  let s := (- r) mod (p - 1) in
  eg_verify {| eg_p := ofZ p; eg_g := ofZ g; eg_y := ofZ y; eg_d := d |} (be_bytes L r ++ be_bytes L s) (be_bytes L s) = Ok 0.
Proof. intros p g y d P. rewrite <- (mlen_len p (prime_pos p P)). revert P. exact (eg_exist p g y d). Qed.
Print Assumptions C86_exist_refuted.
Example C86_exist_ex : eg_verify {| eg_p := ofZ 23; eg_g := ofZ 5; eg_y := ofZ 11; eg_d := ofZ 0 |} [9; 13] [13] = Ok 0.
Proof. apply (C86_exist_refuted 23 5 11 (ofZ 0) prime_23); apply not_23; lia. Qed.
(** Nor is a signature good for one message: all messages with the same number
    modulo p - 1 have the same signatures, leading zero bytes included. *)
Theorem C86_message_refuted : forall p g y d r s m m', prime p -> ~ (p | g) -> 0 <= r -> 0 <= s -> bytes m -> bytes m' ->
  Z.of_nat (length m) <= rsa_len p -> Z.of_nat (length m') <= rsa_len p -> be_val m mod (p - 1) = be_val m' mod (p - 1) ->
  eg_verify2 {| eg_p := ofZ p; eg_g := ofZ g; eg_y := ofZ y; eg_d := d |} (ofZ r) (ofZ s) m =
  eg_verify2 {| eg_p := ofZ p; eg_g := ofZ g; eg_y := ofZ y; eg_d := d |} (ofZ r) (ofZ s) m'.
Proof. intros p g y d r s m m' P. rewrite <- (mlen_len p (prime_pos p P)). revert P. exact (eg_same p g y d r s m m'). Qed.
Print Assumptions C86_message_refuted.
Example C86_message_ex : eg_verify2 {| eg_p := ofZ 23; eg_g := ofZ 5; eg_y := ofZ 11; eg_d := ofZ 0 |} (ofZ 17) (ofZ 1) [6] = Ok 0 /\
  eg_verify2 {| eg_p := ofZ 23; eg_g := ofZ 5; eg_y := ofZ 11; eg_d := ofZ 0 |} (ofZ 17) (ofZ 1) [28] = Ok 0.
Proof.
  assert (E : eg_verify2 {| eg_p := ofZ 23; eg_g := ofZ 5; eg_y := ofZ 11; eg_d := ofZ 0 |} (ofZ 17) (ofZ 1) [6] = Ok 0) by exact (proj1 (proj2 (proj2 C86_exact_ex))).
  split; [exact E|]. rewrite <- E. symmetry. apply C86_message_refuted; first [exact prime_23|apply not_23; lia|repeat constructor; unfold byte; lia|lia|vm_compute; discriminate|reflexivity].
Qed.

(** * C87: key agreement with a bad value from the peer.  Diffie-Hellman: the
    secret is the power of what was received, whatever that is. *)
Theorem C87_dh : forall p g e Y z, 1 < p -> 0 <= e ->
  dh_finalize {| dh_p := ofZ p; dh_g := g; dh_e := ofZ e; dh_Y := ofZ Y; dh_Z := z |} =
  Ok {| dh_p := ofZ p; dh_g := g; dh_e := ofZ e; dh_Y := ofZ Y; dh_Z := ofZ (Y ^ e mod p) |}.
Proof. exact dh_final_eq. Qed.
Print Assumptions C87_dh.
(** For a received value of prime order q it is one of q numbers and gives the
    private exponent modulo q away.  (Every Y with Y^q = 1, Y <> 1 modulo p: for
    q = 2, Y = p - 1.) *)
Theorem C87_dh_refuted : forall p g Y q z, 1 < p -> prime q -> Y ^ q mod p = 1 -> Y mod p <> 1 ->
  (forall e, 0 <= e -> dh_finalize {| dh_p := ofZ p; dh_g := g; dh_e := ofZ e; dh_Y := ofZ Y; dh_Z := z |} =
    Ok {| dh_p := ofZ p; dh_g := g; dh_e := ofZ e; dh_Y := ofZ Y; dh_Z := ofZ (Y ^ (e mod q) mod p) |}) /\
  (forall e e', 0 <= e -> 0 <= e' -> Y ^ e mod p = Y ^ e' mod p -> e mod q = e' mod q).
Proof. exact dh_small. Qed.
Print Assumptions C87_dh_refuted.
(** the values 0 and 1 make it a constant *)
Theorem C87_trivial_refuted : forall p g e z, 1 < p -> 0 < e ->
  dh_finalize {| dh_p := ofZ p; dh_g := g; dh_e := ofZ e; dh_Y := ofZ 1; dh_Z := z |} = Ok {| dh_p := ofZ p; dh_g := g; dh_e := ofZ e; dh_Y := ofZ 1; dh_Z := ofZ 1 |} /\
  dh_finalize {| dh_p := ofZ p; dh_g := g; dh_e := ofZ e; dh_Y := ofZ 0; dh_Z := z |} = Ok {| dh_p := ofZ p; dh_g := g; dh_e := ofZ e; dh_Y := ofZ 0; dh_Z := ofZ 0 |}.
Proof. exact dh_trivial. Qed.
Print Assumptions C87_trivial_refuted.
Example C87_dh_ex : prime 2 /\ 22 ^ 2 mod 23 = 1 /\ 22 mod 23 <> 1 /\ 22 ^ 8 mod 23 = 1 /\ 22 ^ 9 mod 23 = 22.
Proof. split; [exact prime_2|]. repeat split; try reflexivity. discriminate. Qed.

(** ECDH.  A point of the curve gives its multiple. *)
Theorem C87_ecdh : forall id c g d Q z, In (id, c) certified -> ecp_grp_load id = Ok g -> on_curve (cp c) (ca c) (cb c) Q -> 0 <= d ->
  ecdh_final {| dh_ec := g; dh_d := ofZ d; dh_q := ept Q; dh_z := z |} =
  Ok {| dh_ec := g; dh_d := ofZ d; dh_q := ept Q; dh_z := ept (ec_mul (cp c) (ca c) d Q) |}.
Proof. exact peer_named. Qed.
Print Assumptions C87_ecdh.
(** A point Q of small prime order m on a curve with another coefficient b' is
    accepted; the result is one of m points and gives the private key modulo m
    away. *)
Theorem C87_ecdh_refuted : forall p a am b b' G n Q m z, a_rep am a -> ecdsa_domain p a b' Q m ->
  (forall d, 0 <= d -> ecdh_final {| dh_ec := egrp p am b G n; dh_d := ofZ d; dh_q := ept Q; dh_z := z |} =
    Ok {| dh_ec := egrp p am b G n; dh_d := ofZ d; dh_q := ept Q; dh_z := ept (ec_mul p a (d mod m) Q) |}) /\
  (forall d d', 0 <= d -> 0 <= d' -> ec_mul p a d Q = ec_mul p a d' Q -> d mod m = d' mod m).
Proof.
  exact (fun p a am b b' G n Q m z HA HD => conj (fun d Hd => final_residue p a b b' am G n d Q m z HA HD Hd) (fun d d' H H' E => residue_inj p a b' Q m d d' HD H H' E)).
Qed.
Print Assumptions C87_ecdh_refuted.
(** Such a point of order 3 for secp256r1 as the library loads it: the result is
    the point at infinity, Q or - Q, according to d modulo 3. *)
Definition q3 : Z * Z := (6, 0x8006be78d090abd1a7890a1f21172515719def90bad7a1713fc1e58cbc12aeef).
Theorem C87_p256_refuted : forall g d z, ecp_grp_load 2 = Ok g -> 0 <= d ->
  ~ on_curve (cp secp256r1) (ca secp256r1) (cb secp256r1) (Some q3) /\
  ecdh_final {| dh_ec := g; dh_d := ofZ d; dh_q := ept (Some q3); dh_z := z |} =
  Ok {| dh_ec := g; dh_d := ofZ d; dh_q := ept (Some q3); dh_z := ept (if d mod 3 =? 0 then None else if d mod 3 =? 1 then Some q3 else Some (fst q3, cp secp256r1 - snd q3)) |}.
Proof. exact peer_p256. Qed.
Print Assumptions C87_p256_refuted.
(** The point at infinity gives the point at infinity, with code 0. *)
Theorem C87_zero_refuted : forall g d z, ecdh_final {| dh_ec := g; dh_d := d; dh_q := ecp_zero; dh_z := z |} = Ok {| dh_ec := g; dh_d := d; dh_q := ecp_zero; dh_z := ecp_zero |}.
Proof. exact final_zero. Qed.
Print Assumptions C87_zero_refuted.
Example C87_ex : (exists g, ecp_grp_load 2 = Ok g) /\ In (2, secp256r1) certified.
Proof. split; [eexists; vm_compute; reflexivity|right; right; left; reflexivity]. Qed.
