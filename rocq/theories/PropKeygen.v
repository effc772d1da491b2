(** Properties C68 to C70: generating primes, RSA keys and DSA keys. *)
From Coq Require Import Znumtheory.
From Verif Require Import Base BytesSpec MpiModel MpiSpec MpiCanon MpiIOModel MpiTextSpec PkModel PkSpec KeygenModel KeygenSpec Keygen KeygenRsa KeygenDsa KeygenCases.

(** * C68: prime generation *)
(** Reported success: an odd number below 2^bits that the primality test accepted.
    It has exactly [bits] bits, the two top ones set, if the bytes drawn for it do
    not start with a whole digit of zeros; without that it need not. *)
Theorem C68_success_partial : forall s bits iter p0 p i, source_ok s -> 0 <= bits -> mprime s bits iter p0 = Ok (0, p, i) ->
  0 < bits /\ (8 | bits) /\ (0 < i < itermax_of iter)%nat /\
  exists P, p = ofZ P /\ 1 < P < 2 ^ bits /\ Z.odd P = true /\ accepted P /\ (full bits (try_bytes s bits (i - 1)) -> shaped bits P).
Proof. exact mprime_success. Qed.
Print Assumptions C68_success_partial.
(** It passed the five rounds of the primality test, each with bytes of its own;
    C67 counts how many of these let a composite number pass. *)
Theorem C68_rounds : forall s bits iter p0 p i, source_ok s -> 0 <= bits -> mprime s bits iter p0 = Ok (0, p, i) ->
  exists P, p = ofZ P /\ Forall (draw_for P) (map (round_bytes s P (i - 1)) [1; 2; 3; 4; 5]%nat) /\
  is_prime (ofZ P) (round_bytes s P (i - 1) 1) (round_bytes s P (i - 1) 2) (round_bytes s P (i - 1) 3) (round_bytes s P (i - 1) 4) (round_bytes s P (i - 1) 5) = Ok true.
Proof. exact mprime_rounds. Qed.
Print Assumptions C68_rounds.
(** The search returns the first number accepted, and how many it looked at. *)
Theorem C68_search : forall s bits iter p0 t, source_ok s -> 0 < bits -> (8 | bits) -> (t < itermax_of iter)%nat ->
  let P u := forced bits (be_val (try_bytes s bits u)) in
  (forall u, (u <= t)%nat -> full bits (try_bytes s bits u)) ->
  (forall u, (u < t)%nat -> test (at_ s u) (ofZ (P u)) = Ok false) -> test (at_ s t) (ofZ (P t)) = Ok true ->
  mprime s bits iter p0 = Ok (if (S t =? itermax_of iter)%nat then -1 else 0, ofZ (P t), S t).
Proof. exact mprime_search. Qed.
Print Assumptions C68_search.
(** Nothing found in the tries allowed is reported. *)
Theorem C68_none : forall s bits iter p0, 0 < bits -> (8 | bits) ->
  (forall u, (u < itermax_of iter)%nat -> exists p', candidate (at_ s u) bits = Ok p' /\ test (at_ s u) p' = Ok false) ->
  exists p, mprime s bits iter p0 = Ok (-1, p, itermax_of iter).
Proof. exact mprime_none. Qed.
Print Assumptions C68_none.
(** Two numbers of the shape searched for have a product of twice the size. *)
Theorem C68_product : forall b P Q, 2 <= b -> shaped b P -> shaped b Q -> Z.log2 (P * Q) + 1 = 2 * b.
Proof. exact shaped_bits. Qed.
Print Assumptions C68_product.
(** A prime of 72 bits is asked for, 3 is delivered. *)
Theorem C68_short_refuted : exists s, source_ok s /\ (forall p0, mprime s 72 None p0 = Ok (0, ofZ 3, 1%nat)) /\ ~ shaped 72 3.
Proof. exists (valued top_zero). split; [apply valued_ok|]. split; [exact prime_short|]. intros [[H _] _]. apply H. reflexivity. Qed.
Print Assumptions C68_short_refuted.
(** A prime found at the last try allowed is reported as failure. *)
Theorem C68_last_refuted : exists s, source_ok s /\ candidate (at_ s 0) 8 = Ok (ofZ 193) /\ test (at_ s 0) (ofZ 193) = Ok true /\
  forall p0, mprime s 8 (Some 1%nat) p0 = Ok (-1, ofZ 193, 1%nat).
Proof.
  exists (valued one_prime). split; [apply valued_ok|]. split; [vm_compute; reflexivity|]. split; [vm_compute; reflexivity|]. exact prime_last.
Qed.
Print Assumptions C68_last_refuted.
(** Draws of value 1 make the loop dividing p-1 by two run for ever. *)
Theorem C68_endless_refuted : exists s, source_ok s /\ (forall p0, mprime s 72 None p0 = Fuel) /\ forall fuel b, strip2 fuel mzero b = Fuel.
Proof. exists (valued all_one). split; [apply valued_ok|]. split; [exact prime_one|exact strip2_zero]. Qed.
Print Assumptions C68_endless_refuted.
Example C68_ex : source_ok (valued one_prime) /\ mprime (valued one_prime) 8 (Some 2%nat) mzero = Ok (0, ofZ 193, 1%nat) /\
  full 8 (try_bytes (valued one_prime) 8 0) /\ accepted 193.
Proof. split; [apply valued_ok|]. split; [apply prime_second|]. split; [discriminate|exact accepted_193]. Qed.
(** A search with a failing first try: 219 = 3 * 73, then 193. *)
Example C68_ex_search : mprime (valued later) 8 (Some 3%nat) mzero = Ok (0, ofZ 193, 2%nat) /\ forced 8 (be_val (try_bytes (valued later) 8 0)) = 219 /\
  test (at_ (valued later) 0) (ofZ 219) = Ok false /\ mprime (valued later) 8 (Some 2%nat) mzero = Ok (-1, ofZ 193, 2%nat).
Proof. split; [vm_compute; reflexivity|]. split; [vm_compute; reflexivity|]. split; vm_compute; reflexivity. Qed.
Example C68_ex_none : mprime (valued never) 8 (Some 2%nat) mzero = Ok (-1, ofZ 219, 2%nat).
Proof. vm_compute. reflexivity. Qed.

(** * C69: RSA key generation *)
(** Reported success gives a good key, or 10000 rounds have been rejected.  In no
    case is the private exponent written. *)
Theorem C69_keygen_partial : forall jx jy s bits e k rc k', source_ok s -> 0 <= bits -> 0 <= e < 2 ^ 63 -> (exists E0, rk_e k = ofZ E0 /\ 0 <= E0) ->
  rsa_keygen jx jy s bits e k = Ok (rc, k') ->
  rk_d k' = rk_d k /\ (rc = 0 -> rsa_good bits e k' \/ forall u, (u < Z.to_nat 10000)%nat -> rsa_rejected s bits e u).
Proof. exact rsa_keygen_ok. Qed.
Print Assumptions C69_keygen_partial.
(** For a good key a private exponent exists. *)
Theorem C69_valid : forall bits e k P Q E, 0 < e -> rsa_good bits e k -> rk_p k = ofZ P -> rk_q k = ofZ Q -> rk_e k = ofZ E -> prime P -> prime Q ->
  exists d, rsa_valid (P * Q) E d.
Proof. exact rsa_good_valid. Qed.
Print Assumptions C69_valid.
(** Success, but the private exponent is 0 and no key pair has that. *)
Theorem C69_private_refuted : exists s k, source_ok s /\ rsa_keygen 0 0 s 16 5 rsa_fresh = Ok (0, k) /\ rk_d k = mzero /\
  forall n e, ~ rsa_valid n e (mval (rk_d k)).
Proof.
  exists (valued two_primes). eexists. split; [apply valued_ok|]. split; [exact keygen_good|]. split; [reflexivity|]. apply no_private. reflexivity.
Qed.
Print Assumptions C69_private_refuted.
(** Success with an even public exponent. *)
Theorem C69_even_refuted : exists s k, source_ok s /\ rsa_keygen 0 0 s 16 2 rsa_fresh = Ok (0, k) /\ ~ rsa_good 16 2 k.
Proof.
  exists (valued two_primes). eexists. split; [apply valued_ok|]. split; [exact keygen_even|]. apply key_not_good. right. right.
  split; [discriminate|]. split; [discriminate|reflexivity].
Qed.
Print Assumptions C69_even_refuted.
(** Success with a modulus of 16 bits where 17 were asked for. *)
Theorem C69_size_refuted : exists s k, source_ok s /\ rsa_keygen 0 0 s 17 5 rsa_fresh = Ok (0, k) /\ rk_n k = ofZ 38021 /\ Z.log2 38021 + 1 = 16 /\ ~ rsa_good 17 5 k.
Proof.
  exists (valued two_primes). eexists. split; [apply valued_ok|]. split; [exact keygen_odd|]. split; [reflexivity|]. split; [reflexivity|].
  apply key_not_good. left. discriminate.
Qed.
Print Assumptions C69_size_refuted.
(** Success with p = q and the modulus 0. *)
Theorem C69_same_refuted : exists s k, source_ok s /\ rsa_keygen 0 0 s 16 5 rsa_fresh = Ok (0, k) /\ rk_p k = rk_q k /\ rk_n k = mzero.
Proof. exists (valued one_prime). eexists. split; [apply valued_ok|]. split; [exact keygen_same|]. split; reflexivity. Qed.
Print Assumptions C69_same_refuted.
Example C69_ex : let k := rkey_of (ofZ 38021) (ofZ 5) mzero (ofZ 193) (ofZ 197) in
  rsa_keygen 0 0 (valued two_primes) 16 5 rsa_fresh = Ok (0, k) /\ rsa_good 16 5 k /\ rsa_valid 38021 5 15053 /\
  (exists E0, rk_e rsa_fresh = ofZ E0 /\ 0 <= E0).
Proof.
  split; [exact keygen_good|]. split; [exact good_key|]. split; [exact good_valid|]. exists 0. split; [reflexivity|discriminate].
Qed.

(** * C70: DSA key generation *)
(** What a reported success delivers, for every size parameter. *)
Theorem C70_keygen_partial : forall s l c0 c, source_ok s -> 0 <= l -> dsa_keygen s l c0 = Ok c ->
  exists P Q G X, c = {| dsa_p := ofZ P; dsa_q := ofZ Q; dsa_g := ofZ G; dsa_pvt := ofZ X; dsa_pub := ofZ (G ^ X mod P) |} /\
    dsa_made 160 ((512 + l * 64) mod 2 ^ 32) P Q G X.
Proof. exact dsa_keygen_ok. Qed.
Print Assumptions C70_keygen_partial.
(** If the two numbers accepted as prime are prime, these are domain parameters ... *)
Theorem C70_domain : forall qbits pbits P Q G X, dsa_made qbits pbits P Q G X -> prime P -> prime Q -> dsa_domain P Q G.
Proof. exact dsa_made_domain. Qed.
Print Assumptions C70_domain.
(** ... the order of the generator is q ... *)
Theorem C70_order : forall qbits pbits P Q G X, dsa_made qbits pbits P Q G X -> prime P -> prime Q -> forall i, 0 < i < Q -> G ^ i mod P <> 1.
Proof. exact dsa_made_order. Qed.
Print Assumptions C70_order.
(** ... and what is signed with the key verifies. *)
Theorem C70_sign : forall P Q G X qbits pbits bin m r0 s0, dsa_made qbits pbits P Q G X -> qbits <= 512 -> prime P -> prime Q -> draw_for Q bin -> bytes m ->
  let c := {| dsa_p := ofZ P; dsa_q := ofZ Q; dsa_g := ofZ G; dsa_pvt := ofZ X; dsa_pub := ofZ (G ^ X mod P) |} in
  exists r s, dsa_sign c r0 s0 bin m = Ok (0, r, s) /\ dsa_verify c r s m = Ok 0.
Proof. exact dsa_made_sign. Qed.
Print Assumptions C70_sign.
(** The private key is not kept below q, as FIPS 186-4, B.1 asks ... *)
Theorem C70_large_refuted : forall c0, exists s c, source_ok s /\ dsa_keygen s 0 c0 = Ok c /\ mval (dsa_q c) < mval (dsa_pvt c).
Proof. exact dsa_large. Qed.
Print Assumptions C70_large_refuted.
(** ... nor above 0: the public key can be 1. *)
Theorem C70_zero_refuted : forall c0, exists s c, source_ok s /\ dsa_keygen s 0 c0 = Ok c /\ mval (dsa_pvt c) = 0 /\ mval (dsa_pub c) = 1.
Proof. exact dsa_zero. Qed.
Print Assumptions C70_zero_refuted.
(** A run with l = 0 is dsa_case; one with smaller sizes, the numbers prime: *)
Example C70_ex : (forall c0 lim n, dsa_loop (S lim) (S n) 0 (valued small_draws) 16 24 c0 =
    Ok {| dsa_p := ofZ sP; dsa_q := ofZ sQ; dsa_g := ofZ sG; dsa_pvt := ofZ 131; dsa_pub := ofZ (sG ^ 131 mod sP) |}) /\
  dsa_made 16 24 sP sQ sG 131 /\ prime sP /\ prime sQ /\ sP = 9143203 /\ sQ = 49157.
Proof. split; [exact small_case|]. split; [exact small_made|]. split; [exact sP_prime|]. split; [exact sQ_prime|split; reflexivity]. Qed.
