(** C58 to C62: elliptic curves, ECDH and ECDSA.  [ept P] is the object holding
    the point P, [egrp p am b G n] the group object of the curve
    y^2 = x^3 + a x + b modulo p with base point G of order n, [am] holding a. *)
From Coq Require Import Znumtheory.
From Verif Require Import Base BytesSpec MpiModel MpiSpec MpiIOModel MpiTextSpec NumTh EcpModel EcSpec EcZ EcpSpec Ecp EcpMul EcPk EcCurvesModel EcCurvesSpec EcCurves.

(** * C58: the group law *)
(** Addition and doubling give the point of the chord and tangent law, which is
    on the curve, unless a point of order two is to be doubled. *)
Theorem C58_add_partial : forall p a b am G n P Q, a_rep am a -> good_curve p a b -> on_curve p a b P -> on_curve p a b Q ->
  ~ (P = Q /\ exists x, P = Some (x, 0)) ->
  ecp_add (egrp p am b G n) (ept P) (ept Q) = Ok (ept (ec_add p a P Q)) /\ on_curve p a b (ec_add p a P Q).
Proof. intros p a b am G n P Q HA HG HP HQ N. split; [exact (ecp_add_ok p a b am HA HG G n P Q HP HQ N)|exact (ec_add_on p a b HG P Q HP HQ)]. Qed.
Print Assumptions C58_add_partial.
Theorem C58_dbl_partial : forall p a b am G n P, a_rep am a -> good_curve p a b -> on_curve p a b P -> (forall x, P <> Some (x, 0)) ->
  ecp_dbl (egrp p am b G n) (ept P) = Ok (ept (ec_add p a P P)) /\ on_curve p a b (ec_add p a P P).
Proof. intros p a b am G n P HA HG HP N. split; [exact (ecp_dbl_ok p a b am HA HG G n P HP N)|exact (ec_add_on p a b HG P P HP HP)]. Qed.
Print Assumptions C58_dbl_partial.
Theorem C58_neutral : forall g P, ecp_add g (ept None) (ept P) = Ok (ept P) /\ ecp_add g (ept P) (ept None) = Ok (ept P) /\ ecp_dbl g (ept None) = Ok (ept None).
Proof. intros g [[x y]|]; split; [reflexivity|split; reflexivity|reflexivity|split; reflexivity]. Qed.
Print Assumptions C58_neutral.
Theorem C58_inverse_partial : forall p a b am G n P, a_rep am a -> good_curve p a b -> on_curve p a b P -> (forall x, P <> Some (x, 0)) ->
  ecp_add (egrp p am b G n) (ept P) (ept (ec_neg p P)) = Ok (ept None).
Proof.
  intros p a b am G n P HA HG HP N. rewrite <- (ec_add_neg p a b HG P HP).
  exact (ecp_add_ok p a b am HA HG G n P (ec_neg p P) HP (ec_neg_on p a b HG P HP) (fun E => match proj2 E with ex_intro _ x Ex => N x Ex end)).
Qed.
Print Assumptions C58_inverse_partial.
Theorem C58_comm : forall p a b am G n P Q, a_rep am a -> good_curve p a b -> on_curve p a b P -> on_curve p a b Q ->
  ecp_add (egrp p am b G n) (ept P) (ept Q) = ecp_add (egrp p am b G n) (ept Q) (ept P).
Proof. exact ecp_add_comm. Qed.
Print Assumptions C58_comm.
Theorem C58_assoc_partial : forall p a b am G n P Q R, a_rep am a -> good_curve p a b -> on_curve p a b P -> on_curve p a b Q -> on_curve p a b R ->
  let ok U V := ~ (U = V /\ exists x, U = Some (x, 0)) in
  ok P Q -> ok Q R -> ok (ec_add p a P Q) R -> ok P (ec_add p a Q R) ->
  (do S <- ecp_add (egrp p am b G n) (ept P) (ept Q); ecp_add (egrp p am b G n) S (ept R)) = Ok (ept (ec_add p a (ec_add p a P Q) R)) /\
  (do S <- ecp_add (egrp p am b G n) (ept Q) (ept R); ecp_add (egrp p am b G n) (ept P) S) = Ok (ept (ec_add p a (ec_add p a P Q) R)).
Proof. exact ecp_add_assoc. Qed.
Print Assumptions C58_assoc_partial.
(** The law itself is a commutative group, so the specification is the right one. *)
Theorem C58_group : forall p a b, good_curve p a b ->
  (forall P Q, on_curve p a b P -> on_curve p a b Q -> on_curve p a b (ec_add p a P Q) /\ ec_add p a P Q = ec_add p a Q P) /\
  (forall P, ec_add p a None P = P /\ ec_add p a P None = P) /\
  (forall P, on_curve p a b P -> on_curve p a b (ec_neg p P) /\ ec_add p a P (ec_neg p P) = None) /\
  (forall P Q R, on_curve p a b P -> on_curve p a b Q -> on_curve p a b R -> ec_add p a (ec_add p a P Q) R = ec_add p a P (ec_add p a Q R)).
Proof.
  intros p a b HG. split; [|split; [|split]].
  - intros P Q HP HQ. split; [exact (ec_add_on p a b HG P Q HP HQ)|exact (ec_add_comm p a b HG P Q HP HQ)].
  - intro P. split; [exact (ec_add_0_l p a P)|exact (ec_add_0_r p a P)].
  - intros P HP. split; [exact (ec_neg_on p a b HG P HP)|exact (ec_add_neg p a b HG P HP)].
  - exact (ec_add_assoc p a b HG).
Qed.
Print Assumptions C58_group.
(** Doubling a point of order two always fails, where the result is the point at
    infinity. *)
Theorem C58_order2 : forall p a b am G n x, a_rep am a -> good_curve p a b -> on_curve p a b (Some (x, 0)) ->
  ec_add p a (Some (x, 0)) (Some (x, 0)) = None /\ ecp_dbl (egrp p am b G n) (ept (Some (x, 0))) = Err (-1).
Proof.
  intros p a b am G n x HA HG HP. split; [|exact (ecp_dbl_order2 p a b am HA HG G n x)].
  cbn [ec_add]. rewrite Z.eqb_refl. change ((0 + 0) mod p) with (0 mod p). rewrite Z.mod_0_l; [reflexivity|]. destruct HG as (_ & H & _). lia.
Qed.
Print Assumptions C58_order2.

(** y^2 = x^3 + x + 19 modulo 23: 19 points, the base point (2, 11) *)
Definition ex_g : grp := egrp 23 (ofZ 1) 19 (Some (2, 11)) 19.
Lemma ex_prime23 : prime 23. Proof. apply prime_small; [lia|vm_compute; reflexivity]. Qed.
Lemma ex_prime19 : prime 19. Proof. apply prime_small; [lia|vm_compute; reflexivity]. Qed.
Lemma ex_good : good_curve 23 1 19. Proof. split; [exact ex_prime23|]. split; [lia|]. vm_compute. discriminate. Qed.
Lemma ex_rep a : a_rep (ofZ a) a. Proof. left. reflexivity. Qed.
Example C58_ex : good_curve 23 1 19 /\ on_curve 23 1 19 (Some (2, 11)) /\ on_curve 23 1 19 (Some (4, 15)) /\
  ec_add 23 1 (Some (2, 11)) (Some (4, 15)) = Some (21, 20) /\ ec_add 23 1 (Some (2, 11)) (Some (2, 11)) = Some (4, 15).
Proof. split; [exact ex_good|]. split; [cbn; lia|]. split; [cbn; lia|]. split; vm_compute; reflexivity. Qed.

(** y^2 = x^3 + x modulo 23: (0, 0) has order two, (1, 5) order four *)
Lemma ex_good2 : good_curve 23 1 0. Proof. split; [exact ex_prime23|]. split; [lia|]. vm_compute. discriminate. Qed.
Theorem C58_refuted : exists p a b P G n, good_curve p a b /\ on_curve p a b P /\ ec_add p a P P = None /\
  ecp_dbl (egrp p (ofZ a) b G n) (ept P) = Err (-1) /\ ecp_add (egrp p (ofZ a) b G n) (ept P) (ept (ec_neg p P)) = Err (-1).
Proof.
  exists 23, 1, 0, (Some (0, 0)), None, 1. split; [exact ex_good2|]. split; [cbn; lia|]. split; [reflexivity|]. split; vm_compute; reflexivity.
Qed.
Print Assumptions C58_refuted.

(** * C59: scalar multiplication is repeated addition *)
Theorem C59_mul_partial : forall p a b am G n P k, a_rep am a -> good_curve p a b -> on_curve p a b P -> odd_order p a P -> 0 <= k ->
  ecp_mul (egrp p am b G n) (ept P) (ofZ k) = Ok (ept (ec_mul p a k P)).
Proof.
  intros p a b am G n P k HA HG HP HO Hk. rewrite <- (Z.abs_eq k Hk) at 2.
  exact (ecp_mul_ok p a b am G n P k HA HG HP (odd_no_order2 p a b HG P HP HO)).
Qed.
Print Assumptions C59_mul_partial.
(** The exact domain of the proof: no multiple of P may have order two.  A
    negative k gives the same point as its absolute value. *)
Theorem C59_mul_any : forall p a b am G n P k, a_rep am a -> good_curve p a b -> on_curve p a b P -> no_order2 p a P ->
  ecp_mul (egrp p am b G n) (ept P) (ofZ k) = Ok (ept (ec_mul p a (Z.abs k) P)).
Proof. exact ecp_mul_ok. Qed.
Print Assumptions C59_mul_any.
(** the variant without the sliding window *)
Theorem C59_mul_plain : forall p a b am G n P k, a_rep am a -> good_curve p a b -> on_curve p a b P -> no_order2 p a P ->
  ecp_mul_plain (egrp p am b G n) (ept P) (ofZ k) = Ok (ept (ec_mul p a (Z.abs k) P)).
Proof. exact ecp_mul_plain_ok. Qed.
Print Assumptions C59_mul_plain.
(** what k P means: 0 P is the point at infinity, (k + 1) P is P + k P *)
Theorem C59_repeated : forall p a P, ec_mul p a 0 P = None /\ forall k, 0 <= k -> ec_mul p a (k + 1) P = ec_add p a P (ec_mul p a k P).
Proof. intros p a P. split; [reflexivity|]. intros k Hk. exact (ec_mul_S p a k P Hk). Qed.
Print Assumptions C59_repeated.
Lemma ex_order : ec_mul 23 1 19 (Some (2, 11)) = None. Proof. vm_compute. reflexivity. Qed.
Example C59_ex : odd_order 23 1 (Some (2, 11)) /\ ec_mul 23 1 3 (Some (2, 11)) = Some (21, 20).
Proof. split; [exists 19; split; [lia|split; [reflexivity|exact ex_order]]|vm_compute; reflexivity]. Qed.
(** (1, 5) has order four; already 1 (1, 5) fails *)
Theorem C59_refuted : exists p a b P G n, good_curve p a b /\ on_curve p a b P /\ ec_mul p a 1 P = P /\
  ecp_mul (egrp p (ofZ a) b G n) (ept P) (ofZ 1) = Err (-1).
Proof.
  exists 23, 1, 0, (Some (1, 5)), None, 1. split; [exact ex_good2|]. split; [cbn; lia|]. split; [reflexivity|]. vm_compute. reflexivity.
Qed.
Print Assumptions C59_refuted.

(** * C60: ECDH *)
Theorem C60_ecdh : forall p a b am G n d1 d2 q1 z1 q2 z2, a_rep am a -> good_curve p a b -> on_curve p a b G -> odd_order p a G -> 0 <= d1 -> 0 <= d2 ->
  ecdh_exchange {| dh_ec := egrp p am b G n; dh_d := ofZ d1; dh_q := q1; dh_z := z1 |} {| dh_ec := egrp p am b G n; dh_d := ofZ d2; dh_q := q2; dh_z := z2 |} =
  Ok (ept (ec_mul p a (d1 * d2) G), ept (ec_mul p a (d1 * d2) G)).
Proof. exact ecdh_ok. Qed.
Print Assumptions C60_ecdh.
Example C60_ex : ecdh_exchange {| dh_ec := ex_g; dh_d := ofZ 5; dh_q := ecp_zero; dh_z := ecp_zero |} {| dh_ec := ex_g; dh_d := ofZ 7; dh_q := ecp_zero; dh_z := ecp_zero |} =
  Ok (ept (Some (21, 3)), ept (Some (21, 3))).
Proof.
  unfold ex_g. rewrite (C60_ecdh 23 1 19 _ _ _ 5 7) by first [exact (ex_rep 1)|exact ex_good|exact (proj1 C59_ex)|cbn; lia]. vm_compute. reflexivity.
Qed.

(** * C61: ECDSA.  [k] is the nonce, [x] the coordinate used as r. *)
Theorem C61_ecdsa_partial : forall p a b am G n d r0 s0 bin m k, a_rep am a -> ecdsa_domain p a b G n -> 0 <= d -> bytes m ->
  rand_range false 8 (ofZ n) bin = Ok (ofZ k) -> 0 < k < n ->
  exists x y s, ec_mul p a k G = Some (x, y) /\ 0 <= s < n /\
  ecdsa_sign (ekey p a am b G n d) r0 s0 bin m = Ok (0, ofZ x, ofZ s) /\
  (0 < s -> ecdsa_verify (ekey p a am b G n d) (ofZ x) (ofZ s) m = if x <? n then Ok 0 else Err (-1)).
Proof. exact ecdsa_complete. Qed.
Print Assumptions C61_ecdsa_partial.
(** the value of s *)
Theorem C61_sign_value : forall p a b am G n d pub r0 s0 bin m k, a_rep am a -> ecdsa_domain p a b G n -> bytes m ->
  rand_range false 8 (ofZ n) bin = Ok (ofZ k) -> 0 < k < n ->
  let z := be_val (firstn (8 * used (ofZ n)) m) in
  exists x y ki, ec_mul p a k G = Some (x, y) /\ 0 <= ki < n /\ (k * ki) mod n = 1 /\
  ecdsa_sign {| sa_grp := egrp p am b G n; sa_d := ofZ d; sa_q := pub |} r0 s0 bin m = Ok (0, ofZ x, ofZ (((d * x + z) * ki) mod n)).
Proof. exact ecdsa_sign_form. Qed.
Print Assumptions C61_sign_value.
(** what is accepted, for any r and s: exactly the verification equation *)
Theorem C61_verify : forall p a b am G n pvt Q m r s, a_rep am a -> ecdsa_domain p a b G n -> on_curve p a b Q -> odd_order p a Q -> bytes m -> Z.gcd s n = 1 ->
  let z := be_val (firstn (8 * used (ofZ n)) m) in
  exists w, 0 <= w < n /\ (s * w) mod n = 1 /\
  ecdsa_verify {| sa_grp := egrp p am b G n; sa_d := pvt; sa_q := ept Q |} (ofZ r) (ofZ s) m =
  if xcoord (ecdsa_point p a G Q n z r w) mod n =? Z.abs r then Ok 0 else Err (-1).
Proof. exact ecdsa_verify_form. Qed.
Print Assumptions C61_verify.
Theorem C61_verify_err : forall p am b G n c m r s, 0 < n -> Z.gcd s n <> 1 -> sa_grp c = egrp p am b G n -> ecdsa_verify c r (ofZ s) m = Err (-1).
Proof. exact ecdsa_verify_err. Qed.
Print Assumptions C61_verify_err.
Theorem C61_keygen : forall p a b am G n d0 q0 alloc bin, a_rep am a -> ecdsa_domain p a b G n -> draw_for n bin -> (used (ofZ n) <= alloc)%nat ->
  exists d, 0 <= d < n /\ ecdsa_keygen {| sa_grp := egrp p am b G n; sa_d := d0; sa_q := q0 |} false alloc bin = Ok (ekey p a am b G n d).
Proof. exact ecdsa_keygen_ok. Qed.
Print Assumptions C61_keygen.
(** A draw of k = 0 is not rejected: success, with r = 1 and s what it was. *)
Theorem C61_zero_nonce : forall p a b am G n d pub r0 s0 bin m, a_rep am a -> ecdsa_domain p a b G n -> rand_range false 8 (ofZ n) bin = Ok (ofZ 0) ->
  ecdsa_sign {| sa_grp := egrp p am b G n; sa_d := d; sa_q := pub |} r0 s0 bin m = Ok (0, ofZ 1, s0).
Proof. exact ecdsa_sign_zero. Qed.
Print Assumptions C61_zero_nonce.
(** An order of nine digits (secp521r1) and a draw whose ninth digit is zero: the
    nonce's ninth digit is written outside its memory. *)
Theorem C61_nine_digits : forall c p am b G n r0 s0 bin m, sa_grp c = egrp p am b G n -> 0 < n -> used (ofZ n) = 9%nat -> draw_for n bin -> be_val bin < B ^ 8 ->
  ecdsa_sign c r0 s0 bin m = UB.
Proof. exact ecdsa_sign_nine. Qed.
Print Assumptions C61_nine_digits.
Lemma ex_domain : ecdsa_domain 23 1 19 (Some (2, 11)) 19.
Proof. split; [exact ex_good|]. split; [cbn; lia|]. split; [discriminate|]. split; [exact ex_prime19|]. split; [lia|exact ex_order]. Qed.
(** d = 7, k = 5: a signature that verifies *)
Example C61_ex : rand_range false 8 (ofZ 19) [8] = Ok (ofZ 5) /\
  ecdsa_sign (ekey 23 1 (ofZ 1) 19 (Some (2, 11)) 19 7) mzero mzero [8] [1; 2] = Ok (0, ofZ 7, ofZ 12) /\
  ecdsa_verify (ekey 23 1 (ofZ 1) 19 (Some (2, 11)) 19 7) (ofZ 7) (ofZ 12) [1; 2] = Ok 0 /\
  ecdsa_verify (ekey 23 1 (ofZ 1) 19 (Some (2, 11)) 19 7) (ofZ 7) (ofZ 12) [1; 3] = Err (-1).
Proof. vm_compute. auto. Qed.
(** k = 3: r = 21 is not reduced modulo n = 19, and the signature is rejected *)
Theorem C61_refuted : exists p a b G n d bin m r s, ecdsa_domain p a b G n /\ 0 < d < n /\ draw_for n bin /\ bytes m /\ 0 < s < n /\
  ecdsa_sign (ekey p a (ofZ a) b G n d) mzero mzero bin m = Ok (0, ofZ r, ofZ s) /\
  ecdsa_verify (ekey p a (ofZ a) b G n d) (ofZ r) (ofZ s) m = Err (-1).
Proof.
  exists 23, 1, 19, (Some (2, 11)), 19, 7, [6], [1; 2], 21, 2. split; [exact ex_domain|]. split; [lia|].
  split; [split; [repeat constructor; lia|reflexivity]|]. split; [repeat constructor; lia|]. split; [lia|]. split; vm_compute; reflexivity.
Qed.
Print Assumptions C61_refuted.
(** k = 0: success is reported for a signature that is rejected *)
Theorem C61_zero_nonce_refuted : exists p a b G n d bin m r s, ecdsa_domain p a b G n /\ 0 < d < n /\ draw_for n bin /\ bytes m /\
  ecdsa_sign (ekey p a (ofZ a) b G n d) mzero mzero bin m = Ok (0, ofZ r, s) /\
  ecdsa_verify (ekey p a (ofZ a) b G n d) (ofZ r) s m = Err (-1).
Proof.
  exists 23, 1, 19, (Some (2, 11)), 19, 7, [3], [1; 2], 1, mzero. split; [exact ex_domain|]. split; [lia|].
  split; [split; [repeat constructor; lia|reflexivity]|]. split; [repeat constructor; lia|]. split; vm_compute; reflexivity.
Qed.
Print Assumptions C61_zero_nonce_refuted.

(** * C62: the named curves *)
(** Loading curve [id] gives the numbers listed in EcCurvesSpec (most of them
    converted from the same tables, see there); the base point is on the curve
    and the discriminant is not zero. *)
Theorem C62_named : forall id c, In (id, c) named ->
  (exists am, a_rep am (ca c) /\ ecp_grp_load id = Ok (egrp (cp c) am (cb c) (cg c) (cn c))) /\
  on_curve (cp c) (ca c) (cb c) (cg c) /\ (4 * (ca c * ca c * ca c) + 27 * (cb c * cb c)) mod cp c <> 0.
Proof.
  intros id c H. destruct (named_ok id c H) as [L R]. split; [|exact R]. exists (am_of (ca c)). split; [exact (am_of_rep (ca c))|exact L].
Qed.
Print Assumptions C62_named.
Theorem C62_other : forall id, ~ In id (map fst named) -> ecp_grp_load id = Err (-1).
Proof. exact load_other. Qed.
Print Assumptions C62_other.
Example C62_ex : In (2, secp256r1) named /\ length named = 11%nat /\ map fst named = [0; 1; 2; 3; 4; 5; 6; 7; 8; 9; 10].
Proof. split; [right; right; left; reflexivity|]. split; reflexivity. Qed.
