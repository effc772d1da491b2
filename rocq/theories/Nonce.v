(** What the same nonce in two signatures gives away. *)
From Coq Require Import Znumtheory.
From Verif Require Import Base Lists BytesSpec Bytes MpiModel MpiMulModel MpiDivModel MpiAlgModel MpiIOModel MpiSpec MpiDigits MpiCanon MpiDiv MpiAlg MpiAlg2 MpiIO MpiTextSpec MpiRand PkModel PkSpec NumTh Pk EcpModel EcSpec EcZ EcpSpec Ecp EcpMul EcPk.

Ltac Zify.zify_post_hook ::= idtac.
Lemma nonce_pair q k ki d r z1 z2 : prime q -> (k * ki) mod q = 1 ->
  let s1 := ((d * r + z1) * ki) mod q in let s2 := ((d * r + z2) * ki) mod q in
  (r * (z1 - z2)) mod q <> 0 ->
  forall d', (d' * (r * (s1 - s2))) mod q = (s2 * z1 - s1 * z2) mod q <-> d' mod q = d mod q.
Proof.
  intros Q K s1 s2 N d'. pose proof (prime_ge_2 q Q).
  assert (C1 : (s1 * z2) mod q = ((d * r + z1) * ki * z2) mod q) by (unfold s1; apply Z.mul_mod_idemp_l; lia).
  assert (C2 : (s2 * z1) mod q = ((d * r + z2) * ki * z1) mod q) by (unfold s2; apply Z.mul_mod_idemp_l; lia).
  assert (R : (s2 * z1 - s1 * z2) mod q = (d * (r * (z1 - z2) * ki)) mod q).
  { rewrite Zminus_mod, C1, C2, <- Zminus_mod. f_equal. ring. }
  assert (L : (d' * (r * (s1 - s2))) mod q = (d' * (r * (z1 - z2) * ki)) mod q).
  { assert (S : (s1 - s2) mod q = ((z1 - z2) * ki) mod q) by (unfold s1, s2; rewrite <- Zminus_mod; f_equal; ring).
    rewrite !Z.mul_assoc, <- Z.mul_mod_idemp_r, S, Z.mul_mod_idemp_r by lia. f_equal. ring. }
  rewrite R, L. set (u := r * (z1 - z2) * ki).
  assert (U : (u * k) mod q = (r * (z1 - z2)) mod q). { unfold u. rewrite <- Z.mul_assoc, (Z.mul_comm ki k), <- Z.mul_mod_idemp_r, K by lia. f_equal. lia. }
  split; intro E.
  - assert (D : (q | (d' - d) * u)). { apply Z.mod_divide; [lia|]. rewrite Z.mul_sub_distr_r, Zminus_mod, E, Z.sub_diag. apply Z.mod_0_l. lia. }
    apply prime_mult in D; [|exact Q]. destruct D as [D|D].
    + apply Z.mod_divide in D; [|lia]. replace d' with (d + (d' - d)) by lia. rewrite <- Z.add_mod_idemp_r, D, Z.add_0_r by lia. reflexivity.
    + exfalso. apply N. rewrite <- U. apply Z.mod_divide; [lia|]. apply Z.divide_mul_l. exact D.
  - rewrite <- Z.mul_mod_idemp_l, E, Z.mul_mod_idemp_l by lia. reflexivity.
Qed.

Definition dsa_of (p q g x : Z) (pub : mpi) : dsa := {| dsa_p := ofZ p; dsa_q := ofZ q; dsa_g := ofZ g; dsa_pvt := ofZ x; dsa_pub := pub |}.
Theorem dsa_nonce p q g x pub bin m1 m2 r0 s0 r0' s0' : 1 < p -> prime q -> q < 2 ^ 512 -> draw_for q bin -> bytes m1 -> bytes m2 ->
  let z1 := be_val (firstn (8 * used (ofZ q)) m1) in let z2 := be_val (firstn (8 * used (ofZ q)) m2) in
  exists r s1 s2, dsa_sign (dsa_of p q g x pub) r0 s0 bin m1 = Ok (0, ofZ r, ofZ s1) /\ dsa_sign (dsa_of p q g x pub) r0' s0' bin m2 = Ok (0, ofZ r, ofZ s2) /\
  ((r * (z1 - z2)) mod q <> 0 -> forall x', (x' * (r * (s1 - s2))) mod q = (s2 * z1 - s1 * z2) mod q <-> x' mod q = x mod q).
Proof.
  intros Hp Q L D H1 H2 z1 z2. pose proof (prime_ge_2 q Q). destruct (dsa_secret_ok q bin Q L D) as (k & K & Hk).
  destruct (inv_ofZ k q ltac:(lia)) as [I _]. destruct (I (gcd_prime_small q k Q Hk)) as (ki & IK & Hki & E). rewrite Z.mod_1_l in E by lia.
  set (r := (g ^ k mod p) mod q).
  assert (S : forall r0 s0 m, bytes m -> dsa_sign (dsa_of p q g x pub) r0 s0 bin m = Ok (0, ofZ r, ofZ (((x * r + be_val (firstn (8 * used (ofZ q)) m)) * ki) mod q))).
  { intros a b m Hm. unfold dsa_sign, dsa_of. cbn [dsa_p dsa_q dsa_g dsa_pvt dsa_pub]. rewrite K, chk_ok.
    rewrite (mod_exp_ofZ g k p) by lia. rewrite chk_ok, mod_ofZ by lia. rewrite chk_ok, IK, chk_ok, mul_ofZ, chk_ok.
    unfold dsa_trunc. rewrite load_bin_ofZ by (apply bytes_firstn; exact Hm). rewrite add_ofZ, chk_ok, mul_ofZ, chk_ok, mod_ofZ by lia. reflexivity. }
  exists r, (((x * r + z1) * ki) mod q), (((x * r + z2) * ki) mod q). split; [exact (S r0 s0 m1 H1)|]. split; [exact (S r0' s0' m2 H2)|].
  exact (nonce_pair q k ki x r z1 z2 Q E).
Qed.
Theorem ecdsa_nonce p a b am G n d pub bin m1 m2 r0 s0 r0' s0' k : a_rep am a -> ecdsa_domain p a b G n -> bytes m1 -> bytes m2 ->
  rand_range false 8 (ofZ n) bin = Ok (ofZ k) -> 0 < k < n ->
  let c := {| sa_grp := egrp p am b G n; sa_d := ofZ d; sa_q := pub |} in
  let z1 := be_val (firstn (8 * used (ofZ n)) m1) in let z2 := be_val (firstn (8 * used (ofZ n)) m2) in
  exists r s1 s2, ecdsa_sign c r0 s0 bin m1 = Ok (0, ofZ r, ofZ s1) /\ ecdsa_sign c r0' s0' bin m2 = Ok (0, ofZ r, ofZ s2) /\
  ((r * (z1 - z2)) mod n <> 0 -> forall d', (d' * (r * (s1 - s2))) mod n = (s2 * z1 - s1 * z2) mod n <-> d' mod n = d mod n).
Proof.
  intros HA HD H1 H2 E Hk c z1 z2. pose proof HD as (_ & _ & _ & Hn & _ & _).
  destruct (ecdsa_sign_form p a b am G n d pub r0 s0 bin m1 k HA HD H1 E Hk) as (x & y & ki & EX & Hki & K & S1).
  destruct (ecdsa_sign_form p a b am G n d pub r0' s0' bin m2 k HA HD H2 E Hk) as (x' & y' & ki' & EX' & Hki' & K' & S2).
  rewrite EX in EX'. injection EX' as <- <-.
  assert (ki' = ki) as ->.
  { pose proof (prime_ge_2 n Hn). rewrite <- (Z.mod_small ki n Hki), <- (Z.mod_small ki' n Hki').
    rewrite <- (Z.mul_1_r ki), <- (Z.mul_1_r ki'). transitivity ((ki' * (k * ki)) mod n).
    - rewrite <- (Z.mul_mod_idemp_r ki' (k * ki)) by lia. rewrite K. reflexivity.
    - replace (ki' * (k * ki)) with (ki * (k * ki')) by ring. rewrite <- (Z.mul_mod_idemp_r ki (k * ki')) by lia. rewrite K'. reflexivity. }
  exists x, (((d * x + z1) * ki) mod n), (((d * x + z2) * ki) mod n). split; [exact S1|]. split; [exact S2|].
  exact (nonce_pair n k ki d x z1 z2 Hn K).
Qed.
