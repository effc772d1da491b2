(** ECDH and ECDSA. *)
From Coq Require Import ZArith Znumtheory Lia List.
From Verif Require Import Base Lists BytesSpec Bytes MpiModel MpiSpec MpiCanon MpiMulModel MpiDivModel MpiDiv MpiAlgModel MpiAlg MpiAlg2 MpiIOModel MpiIO MpiTextSpec MpiRand Pk NumTh EcpModel EcSpec EcZ EcpSpec Ecp EcpMul.
Import ListNotations.
Open Scope Z_scope.
Ltac Zify.zify_post_hook ::= idtac.

Lemma mult_odd_order p a b P k : good_curve p a b -> on_curve p a b P -> odd_order p a P -> 0 <= k -> odd_order p a (ec_mul p a k P).
Proof.
  intros HG HP (n & Hn & O & E) Hk. exists n. split; [auto|]. split; [auto|].
  rewrite (ec_mul_mul p a b HG) by (auto; lia). rewrite Z.mul_comm, <- (ec_mul_mul p a b HG) by (auto; lia). rewrite E. apply ec_mul_None.
Qed.
(** multiplication of a multiple of a point of odd order *)
Lemma ecp_mul_mult p a b am G n P j k : a_rep am a -> good_curve p a b -> on_curve p a b P -> odd_order p a P -> 0 <= j -> 0 <= k ->
  ecp_mul (egrp p am b G n) (ept (ec_mul p a j P)) (ofZ k) = Ok (ept (ec_mul p a (k * j) P)).
Proof.
  intros HA HG HP HO Hj Hk. rewrite (ecp_mul_ok p a b am); auto.
  - rewrite Z.abs_eq by auto. rewrite (ec_mul_mul p a b HG) by auto. reflexivity.
  - apply (ec_mul_on p a b HG); auto.
  - apply (odd_no_order2 p a b HG); [apply (ec_mul_on p a b HG); auto|]. apply (mult_odd_order p a b); auto.
Qed.
Lemma ecp_mul_gen1 p a b am G n k : a_rep am a -> good_curve p a b -> on_curve p a b G -> odd_order p a G -> 0 <= k ->
  ecp_mul (egrp p am b G n) (ept G) (ofZ k) = Ok (ept (ec_mul p a k G)).
Proof.
  intros HA HG HP HO Hk. pose proof (ecp_mul_mult p a b am G n G 1 k HA HG HP HO ltac:(lia) Hk) as E. rewrite ec_mul_1, Z.mul_1_r in E. exact E.
Qed.

Theorem ecdh_ok p a b am G n d1 d2 q1 z1 q2 z2 : a_rep am a -> good_curve p a b -> on_curve p a b G -> odd_order p a G -> 0 <= d1 -> 0 <= d2 ->
  ecdh_exchange {| dh_ec := egrp p am b G n; dh_d := ofZ d1; dh_q := q1; dh_z := z1 |} {| dh_ec := egrp p am b G n; dh_d := ofZ d2; dh_q := q2; dh_z := z2 |} =
  Ok (ept (ec_mul p a (d1 * d2) G), ept (ec_mul p a (d1 * d2) G)).
Proof.
  intros HA HG HP HO H1 H2. unfold ecdh_exchange, ecdh_agree. cbn [dh_ec dh_d gg]. change (gg (egrp p am b G n)) with (ept G).
  rewrite (ecp_mul_gen1 p a b am) by auto. cbn [bind]. rewrite (ecp_mul_gen1 p a b am) by auto. cbn [bind dh_q].
  unfold ecdh_final, ecdh_set_peer. cbn [dh_ec dh_d dh_q].
  rewrite (ecp_mul_mult p a b am) by auto. cbn [bind]. rewrite (ecp_mul_mult p a b am) by auto. cbn [bind dh_z]. rewrite (Z.mul_comm d2). reflexivity.
Qed.

(** * ECDSA *)
Lemma domain_odd p a b G n : ecdsa_domain p a b G n -> odd_order p a G.
Proof.
  intros (HG & HP & _ & Hn & L & E). exists n. split; [lia|]. split; [|exact E].
  destruct (Z.odd n) eqn:O; [reflexivity|exfalso]. rewrite <- Z.negb_even in O. apply Bool.negb_false_iff in O. apply Z.even_spec in O. destruct O as [k Hk].
  assert (D : (2 | n)) by (exists k; lia). apply (prime_divisors n Hn) in D. lia.
Qed.
(** a multiple k G, 0 < k < n, is not the point at infinity *)
Lemma domain_finite p a b G n k : ecdsa_domain p a b G n -> 0 < k < n -> ec_mul p a k G <> None.
Proof.
  intros (HG & HP & NG & Hn & L & E) Hk E0. apply NG.
  assert (R : rel_prime k n) by (apply rel_prime_le_prime; auto; lia). apply rel_prime_bezout in R. destruct R as [u v Huv].
  assert (M : (u * k) mod n = 1 mod n) by (rewrite <- Huv; rewrite Z_mod_plus_full; reflexivity).
  rewrite <- (ec_mul_1 p a G). transitivity (ec_mul p a ((u mod n) * k) G).
  - pose proof (Z.mod_pos_bound u n ltac:(lia)). apply (ec_mul_period p a b HG n); auto; [lia|lia|nia|]. rewrite Z.mul_mod_idemp_l by lia. symmetry. exact M.
  - pose proof (Z.mod_pos_bound u n ltac:(lia)). rewrite <- (ec_mul_mul p a b HG) by (auto; lia). rewrite E0. apply ec_mul_None.
Qed.
Lemma ex_ept P : ex (ept P) = ofZ (xcoord P). Proof. destruct P as [[x y]|]; reflexivity. Qed.

Theorem ecdsa_sign_form p a b am G n d pub r0 s0 bin m k : a_rep am a -> ecdsa_domain p a b G n -> bytes m ->
  rand_range false 8 (ofZ n) bin = Ok (ofZ k) -> 0 < k < n ->
  let z := be_val (firstn (8 * used (ofZ n)) m) in
  exists x y ki, ec_mul p a k G = Some (x, y) /\ 0 <= ki < n /\ (k * ki) mod n = 1 /\
  ecdsa_sign {| sa_grp := egrp p am b G n; sa_d := ofZ d; sa_q := pub |} r0 s0 bin m = Ok (0, ofZ x, ofZ (((d * x + z) * ki) mod n)).
Proof.
  intros HA HD Hm E Hk z. pose proof HD as (HG & HP & NG & Hn & L & E0). pose proof (domain_odd _ _ _ _ _ HD) as HO.
  pose proof (domain_finite p a b G n k HD Hk) as F. destruct (ec_mul p a k G) as [[x y]|] eqn:EX; [|contradiction].
  destruct (inv_ofZ k n ltac:(lia)) as [I _]. destruct (I (gcd_prime_small n k Hn Hk)) as (ki & IK & Hki & EK). rewrite Z.mod_1_l in EK by lia.
  exists x, y, ki. split; [reflexivity|]. split; [exact Hki|]. split; [exact EK|].
  unfold ecdsa_sign. cbn [sa_grp sa_d]. change (gn (egrp p am b G n)) with (ofZ n). change (gg (egrp p am b G n)) with (ept G). rewrite E. cbn [chk].
  rewrite (ecp_mul_gen1 p a b am) by (auto; lia). cbn [chk]. rewrite ex_ept, EX. cbn [xcoord]. rewrite IK. cbn [chk]. rewrite mul_ofZ. cbn [chk].
  unfold ecdsa_trunc. rewrite load_bin_ofZ by (apply bytes_firstn; exact Hm). rewrite add_ofZ. cbn [chk]. rewrite mul_ofZ. cbn [chk]. rewrite mod_ofZ by lia. reflexivity.
Qed.
(** k = 0: success is reported, with r = 1 and s as it was *)
Theorem ecdsa_sign_zero p a b am G n d pub r0 s0 bin m : a_rep am a -> ecdsa_domain p a b G n -> rand_range false 8 (ofZ n) bin = Ok (ofZ 0) ->
  ecdsa_sign {| sa_grp := egrp p am b G n; sa_d := d; sa_q := pub |} r0 s0 bin m = Ok (0, ofZ 1, s0).
Proof.
  intros HA HD E. pose proof HD as (HG & HP & NG & Hn & L & E0). pose proof (domain_odd _ _ _ _ _ HD) as HO.
  unfold ecdsa_sign. cbn [sa_grp sa_d]. change (gn (egrp p am b G n)) with (ofZ n). change (gg (egrp p am b G n)) with (ept G). rewrite E. cbn [chk].
  rewrite (ecp_mul_gen1 p a b am) by (auto; lia). cbn [chk]. rewrite ex_ept. cbn [ec_mul Z.iter xcoord].
  destruct (inv_ofZ 0 n ltac:(lia)) as [_ I]. rewrite I by (rewrite Z.gcd_0_l; lia). reflexivity.
Qed.

Theorem ecdsa_verify_any p a b am G n pvt Q m r s : a_rep am a -> ecdsa_domain p a b G n -> on_curve p a b Q -> no_order2 p a Q -> bytes m -> Z.gcd s n = 1 ->
  let z := be_val (firstn (8 * used (ofZ n)) m) in
  exists w, 0 <= w < n /\ (s * w) mod n = 1 /\
  ecdsa_verify {| sa_grp := egrp p am b G n; sa_d := pvt; sa_q := ept Q |} (ofZ r) (ofZ s) m =
  if xcoord (ecdsa_point p a G Q n z r w) mod n =? Z.abs r then Ok 0 else Err (-1).
Proof.
  intros HA HD HQ OQ Hm GS z. pose proof HD as (HG & HP & NG & Hn & L & E0). pose proof (domain_odd _ _ _ _ _ HD) as HO.
  destruct (inv_ofZ s n ltac:(lia)) as [I _]. destruct (I GS) as (w & W & Hw & E). rewrite Z.mod_1_l in E by lia.
  exists w. split; [auto|]. split; [auto|]. unfold ecdsa_verify. cbn [sa_grp sa_d sa_q]. change (gn (egrp p am b G n)) with (ofZ n). change (gg (egrp p am b G n)) with (ept G).
  rewrite W. cbn [bind]. unfold ecdsa_trunc. rewrite load_bin_ofZ by (apply bytes_firstn; exact Hm). fold z.
  rewrite mul_ofZ. cbn [bind]. rewrite mod_ofZ by lia. cbn [bind]. rewrite mul_ofZ. cbn [bind]. rewrite mod_ofZ by lia. cbn [bind].
  pose proof (Z.mod_pos_bound (z * w) n ltac:(lia)) as B1. pose proof (Z.mod_pos_bound (r * w) n ltac:(lia)) as B2.
  rewrite (ecp_mul_gen1 p a b am) by (auto; lia). cbn [bind].
  rewrite (ecp_mul_ok p a b am) by auto. cbn [bind]. rewrite (Z.abs_eq ((r * w) mod n)) by lia.
  rewrite (ecp_add_ok p a b am HA HG).
  2,3: apply (ec_mul_on p a b HG); auto; lia.
  2:{ intros [_ [x Ex]]. revert Ex. apply (odd_no_order2 p a b HG G HP HO). lia. }
  cbn [bind]. rewrite ex_ept, mod_ofZ by lia. cbn [bind]. fold (ecdsa_point p a G Q n z r w). rewrite cmp_abs_ofZ.
  set (v := xcoord (ecdsa_point p a G Q n z r w) mod n). assert (Hv : 0 <= v < n) by (apply Z.mod_pos_bound; lia). rewrite (Z.abs_eq v) by lia. clearbody v. clear - Hv.
  replace (Z.sgn (v - Z.abs r) =? 0) with (v =? Z.abs r) by lia. reflexivity.
Qed.
Theorem ecdsa_verify_form p a b am G n pvt Q m r s : a_rep am a -> ecdsa_domain p a b G n -> on_curve p a b Q -> odd_order p a Q -> bytes m -> Z.gcd s n = 1 ->
  let z := be_val (firstn (8 * used (ofZ n)) m) in
  exists w, 0 <= w < n /\ (s * w) mod n = 1 /\
  ecdsa_verify {| sa_grp := egrp p am b G n; sa_d := pvt; sa_q := ept Q |} (ofZ r) (ofZ s) m =
  if xcoord (ecdsa_point p a G Q n z r w) mod n =? Z.abs r then Ok 0 else Err (-1).
Proof.
  intros HA HD HQ OQ. apply (ecdsa_verify_any p a b); auto. apply (odd_no_order2 p a b (proj1 HD)); auto.
Qed.
Theorem ecdsa_verify_err p am b G n c m r s : 0 < n -> Z.gcd s n <> 1 -> sa_grp c = egrp p am b G n -> ecdsa_verify c r (ofZ s) m = Err (-1).
Proof.
  intros Hn GS E. destruct (inv_ofZ s n Hn) as [_ J]. unfold ecdsa_verify. rewrite E. change (gn (egrp p am b G n)) with (ofZ n). rewrite (J GS). reflexivity.
Qed.

(** u1 G + u2 Q = k G *)
Lemma ecdsa_equation p a b G n d k ki z r w : ecdsa_domain p a b G n -> 0 <= d -> 0 < k < n -> (k * ki) mod n = 1 ->
  0 <= w < n -> ((((d * r + z) * ki) mod n) * w) mod n = 1 -> ecdsa_point p a G (ec_mul p a d G) n z r w = ec_mul p a k G.
Proof.
  intros HD Hd Hk K Hw W. pose proof HD as (HG & HP & NG & Hn & L & E0). unfold ecdsa_point.
  pose proof (Z.mod_pos_bound (z * w) n ltac:(lia)) as B1. pose proof (Z.mod_pos_bound (r * w) n ltac:(lia)) as B2.
  set (u1 := (z * w) mod n) in *. set (u2 := (r * w) mod n) in *.
  rewrite (ec_mul_mul p a b HG) by (auto; lia). assert (0 <= u2 * d) by (apply Z.mul_nonneg_nonneg; lia). rewrite <- (ec_mul_add p a b HG) by (auto; lia).
  apply (ec_mul_period p a b HG n); auto; [lia|lia|lia|].
  transitivity ((z * w + (r * w) * d) mod n).
  { apply mod_add; [lia|unfold u1; apply mod_modl; lia|]. apply mod_mul; [lia|unfold u2; apply mod_modl; lia|reflexivity]. }
  replace (z * w + r * w * d) with ((d * r + z) * w * 1) by ring.
  transitivity (((d * r + z) * w * (k * ki)) mod n). { apply mod_mul; [lia|reflexivity|]. rewrite K, Z.mod_1_l by lia. reflexivity. }
  replace ((d * r + z) * w * (k * ki)) with (k * (((d * r + z) * ki) * w)) by ring.
  transitivity ((k * 1) mod n); [|rewrite Z.mul_1_r; reflexivity]. apply mod_mul; [lia|reflexivity|]. rewrite Z.mod_1_l by lia.
  transitivity ((((d * r + z) * ki) mod n * w) mod n); [|exact W]. apply mod_mul; [lia|symmetry; apply mod_modl; lia|reflexivity].
Qed.
Theorem ecdsa_complete p a b am G n d r0 s0 bin m k : a_rep am a -> ecdsa_domain p a b G n -> 0 <= d -> bytes m ->
  rand_range false 8 (ofZ n) bin = Ok (ofZ k) -> 0 < k < n ->
  exists x y s, ec_mul p a k G = Some (x, y) /\ 0 <= s < n /\
  ecdsa_sign (ekey p a am b G n d) r0 s0 bin m = Ok (0, ofZ x, ofZ s) /\
  (0 < s -> ecdsa_verify (ekey p a am b G n d) (ofZ x) (ofZ s) m = if x <? n then Ok 0 else Err (-1)).
Proof.
  intros HA HD Hd Hm E Hk. pose proof HD as (HG & HP & NG & Hn & L & E0). pose proof (domain_odd _ _ _ _ _ HD) as HO.
  destruct (ecdsa_sign_form p a b am G n d (ept (ec_mul p a d G)) r0 s0 bin m k HA HD Hm E Hk) as (x & y & ki & EX & Hki & K & ES).
  set (z := be_val (firstn (8 * used (ofZ n)) m)) in *. set (s := ((d * x + z) * ki) mod n) in *.
  exists x, y, s. split; [exact EX|]. split; [apply Z.mod_pos_bound; lia|]. split; [exact ES|]. intro Hs.
  assert (Hs' : 0 < s < n) by (pose proof (Z.mod_pos_bound ((d * x + z) * ki) n ltac:(lia)); unfold s in *; lia).
  destruct (ecdsa_verify_form p a b am G n (ofZ d) (ec_mul p a d G) m x s HA HD) as (w & Hw & W & V).
  { apply (ec_mul_on p a b HG); auto. } { apply (mult_odd_order p a b); auto. } { exact Hm. } { apply gcd_prime_small; auto. }
  fold z in V. unfold ekey. rewrite V. rewrite (ecdsa_equation p a b G n d k ki z x w) by auto. rewrite EX. cbn [xcoord].
  assert (HX : on_curve p a b (Some (x, y))) by (rewrite <- EX; apply (ec_mul_on p a b HG); auto; lia). destruct HX as (Hx & _).
  rewrite (Z.abs_eq x) by lia. destruct (Z.ltb_spec x n) as [Lx|Lx].
  - rewrite Z.mod_small, Z.eqb_refl by lia. reflexivity.
  - pose proof (Z.mod_pos_bound x n ltac:(lia)) as Bx. destruct (Z.eqb_spec (x mod n) x); [lia|]. reflexivity.
Qed.
Theorem ecdsa_keygen_ok p a b am G n d0 q0 alloc bin : a_rep am a -> ecdsa_domain p a b G n -> draw_for n bin ->
  (used (ofZ n) <= alloc)%nat ->
  exists d, 0 <= d < n /\ ecdsa_keygen {| sa_grp := egrp p am b G n; sa_d := d0; sa_q := q0 |} false alloc bin = Ok (ekey p a am b G n d).
Proof.
  intros HA HD Db Ha. pose proof HD as (HG & HP & NG & Hn & L & E0). pose proof (domain_odd _ _ _ _ _ HD) as HO.
  destruct (rand_range_ok alloc n bin ltac:(lia) Db (or_introl Ha)) as (d & E & Hd). exists d. split; [exact Hd|].
  unfold ecdsa_keygen. cbn [sa_grp]. change (gn (egrp p am b G n)) with (ofZ n). change (gg (egrp p am b G n)) with (ept G). rewrite E. cbn [bind].
  rewrite (ecp_mul_gen1 p a b am) by (auto; lia). reflexivity.
Qed.
(** n of 9 digits, as for secp521r1: the nonce's object has room for 8 *)
Lemma rand_range_nine n bin : 0 < n -> used (ofZ n) = 9%nat -> draw_for n bin -> be_val bin < B ^ 8 -> rand_range false 8 (ofZ n) bin = UB.
Proof.
  intros Hn U [HB L] Hs. unfold rand_range, rand. pose proof (ndigs_used n Hn) as D. rewrite U in D.
  destruct (Z.eqb_spec (count_bits (ofZ n)) 0) as [E|_]; [rewrite E in D; discriminate D|]. cbv zeta. unfold ndigs in D. rewrite D.
  destruct (load_bin_ok false bin HB) as (W & V & _). assert (Ub : (used (load_bin false bin) <= 8)%nat) by (apply wf_len_le; [exact W|rewrite V; exact Hs]).
  destruct (Nat.leb_spec 9 (used (load_bin false bin))); [lia|]. destruct (Nat.ltb_spec 8 (used (load_bin false bin))); [lia|]. reflexivity.
Qed.
Theorem ecdsa_sign_nine c p am b G n r0 s0 bin m : sa_grp c = egrp p am b G n -> 0 < n -> used (ofZ n) = 9%nat -> draw_for n bin -> be_val bin < B ^ 8 ->
  ecdsa_sign c r0 s0 bin m = UB.
Proof. intros Ec Hn U HD Hs. unfold ecdsa_sign. rewrite Ec. change (gn (egrp p am b G n)) with (ofZ n). rewrite rand_range_nine by auto. reflexivity. Qed.
Lemma ept_inj_on p a b P Q : on_curve p a b P -> on_curve p a b Q -> P = Q \/ P <> Q.
Proof. intros _ _. destruct P as [[x y]|], Q as [[x' y']|]; try (right; discriminate); [|left; reflexivity]. destruct (Z.eq_dec x x') as [->|], (Z.eq_dec y y') as [->|]; auto; right; congruence. Qed.
Theorem ecp_add_comm p a b am G n P Q : a_rep am a -> good_curve p a b -> on_curve p a b P -> on_curve p a b Q ->
  ecp_add (egrp p am b G n) (ept P) (ept Q) = ecp_add (egrp p am b G n) (ept Q) (ept P).
Proof.
  intros HA HG HP HQ. destruct (ept_inj_on p a b P Q HP HQ) as [->|N]; [reflexivity|].
  rewrite !(ecp_add_ok p a b am HA HG) by (auto; intros [E _]; congruence). rewrite (ec_add_comm p a b HG) by auto. reflexivity.
Qed.
(** both groupings of P + Q + R, when neither meets the doubling of a point of order two *)
Theorem ecp_add_assoc p a b am G n P Q R : a_rep am a -> good_curve p a b -> on_curve p a b P -> on_curve p a b Q -> on_curve p a b R ->
  let ok U V := ~ (U = V /\ exists x, U = Some (x, 0)) in
  ok P Q -> ok Q R -> ok (ec_add p a P Q) R -> ok P (ec_add p a Q R) ->
  (do S <- ecp_add (egrp p am b G n) (ept P) (ept Q); ecp_add (egrp p am b G n) S (ept R)) = Ok (ept (ec_add p a (ec_add p a P Q) R)) /\
  (do S <- ecp_add (egrp p am b G n) (ept Q) (ept R); ecp_add (egrp p am b G n) (ept P) S) = Ok (ept (ec_add p a (ec_add p a P Q) R)).
Proof.
  intros HA HG HP HQ HR ok O1 O2 O3 O4. rewrite !(ecp_add_ok p a b am HA HG) by auto. cbn [bind].
  rewrite !(ecp_add_ok p a b am HA HG) by (auto; apply (ec_add_on p a b HG); auto). split; [reflexivity|]. rewrite (ec_add_assoc p a b HG) by auto. reflexivity.
Qed.
(** trial division, for the examples *)
Lemma prime_small q : 1 < q -> forallb (fun i => Z.gcd (Z.of_nat i) q =? 1) (seq 1 (Z.to_nat q - 1)) = true -> prime q.
Proof.
  intros Hq H. apply prime_intro; [exact Hq|]. intros i Hi. apply Zgcd_1_rel_prime. rewrite forallb_forall in H.
  specialize (H (Z.to_nat i)). rewrite Z2Nat.id in H by lia. apply Z.eqb_eq, H. apply in_seq. lia.
Qed.
