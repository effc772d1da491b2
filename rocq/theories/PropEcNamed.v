(** C75 and C76: the named curves secp192r1, secp224r1, secp256r1, secp192k1,
    secp224k1 and secp256k1 (EcNamedSpec.certified), as loaded by the library. *)
From Coq Require Import Znumtheory.
From Verif Require Import Base BytesSpec MpiModel MpiSpec MpiIOModel MpiTextSpec EcpModel EcSpec EcZ EcpSpec EcCurvesModel EcCurvesSpec EcNamedSpec EcNamed FastMul EcOrder Cert256r1.

(** * C75 *)
(** The field's modulus and the order are prime, the curve is not singular, and
    the multiples k G are the point at infinity exactly for the multiples k of
    the order. *)
Theorem C75_domain : forall id c, In (id, c) certified -> ecdsa_domain (cp c) (ca c) (cb c) (cg c) (cn c).
Proof. exact certified_domain. Qed.
Print Assumptions C75_domain.
Theorem C75_order : forall id c k, In (id, c) certified -> 0 <= k -> (ec_mul (cp c) (ca c) k (cg c) = None <-> (cn c | k)).
Proof. exact (fun id c k H => named_order id c H k). Qed.
Print Assumptions C75_order.
(** No exception is left in the group law: on every two points of the curve. *)
Theorem C75_add : forall id c g P Q, In (id, c) certified -> ecp_grp_load id = Ok g ->
  on_curve (cp c) (ca c) (cb c) P -> on_curve (cp c) (ca c) (cb c) Q ->
  ecp_add g (ept P) (ept Q) = Ok (ept (ec_add (cp c) (ca c) P Q)) /\ ecp_dbl g (ept P) = Ok (ept (ec_add (cp c) (ca c) P P)).
Proof. exact (fun id c g P Q H L HP HQ => conj (named_add id c g H L P Q HP HQ) (named_dbl id c g H L P HP)). Qed.
Print Assumptions C75_add.
Theorem C75_mul : forall id c g P k, In (id, c) certified -> ecp_grp_load id = Ok g -> on_curve (cp c) (ca c) (cb c) P ->
  ecp_mul g (ept P) (ofZ k) = Ok (ept (ec_mul (cp c) (ca c) (Z.abs k) P)).
Proof. exact (fun id c g P k H L HP => named_mul id c g H L P k HP). Qed.
Print Assumptions C75_mul.
(** ECDH: both parties get the same point; and for any peer's point on the curve
    the shared point is d Q. *)
Theorem C75_ecdh : forall id c g d1 d2 q1 z1 q2 z2, In (id, c) certified -> ecp_grp_load id = Ok g -> 0 <= d1 -> 0 <= d2 ->
  ecdh_exchange {| dh_ec := g; dh_d := ofZ d1; dh_q := q1; dh_z := z1 |} {| dh_ec := g; dh_d := ofZ d2; dh_q := q2; dh_z := z2 |} =
  Ok (ept (ec_mul (cp c) (ca c) (d1 * d2) (cg c)), ept (ec_mul (cp c) (ca c) (d1 * d2) (cg c))).
Proof. exact (fun id c g d1 d2 q1 z1 q2 z2 H L => named_ecdh id c g H L d1 d2 q1 z1 q2 z2). Qed.
Print Assumptions C75_ecdh.
Theorem C75_ecdh_peer : forall id c g d Q z, In (id, c) certified -> ecp_grp_load id = Ok g -> on_curve (cp c) (ca c) (cb c) Q ->
  ecdh_final {| dh_ec := g; dh_d := ofZ d; dh_q := ept Q; dh_z := z |} =
  Ok {| dh_ec := g; dh_d := ofZ d; dh_q := ept Q; dh_z := ept (ec_mul (cp c) (ca c) (Z.abs d) Q) |}.
Proof. exact (fun id c g d Q z H L => named_final id c g H L d Q z). Qed.
Print Assumptions C75_ecdh_peer.
(** ECDSA: a key pair from the library, then a signature with it.  [k] is the
    nonce drawn; the signature is accepted if k and s are not zero and the
    coordinate x is below the order. *)
Theorem C75_ecdsa : forall id c g d0 q0 alloc kbin, In (id, c) certified -> ecp_grp_load id = Ok g -> draw_for (cn c) kbin -> (4 <= alloc)%nat ->
  exists d key, 0 <= d < cn c /\ ecdsa_keygen {| sa_grp := g; sa_d := d0; sa_q := q0 |} false alloc kbin = Ok key /\
  forall r0 s0 bin m, draw_for (cn c) bin -> bytes m ->
  exists k, 0 <= k < cn c /\ rand_range false 8 (ofZ (cn c)) bin = Ok (ofZ k) /\
  (0 < k -> exists x y s, ec_mul (cp c) (ca c) k (cg c) = Some (x, y) /\ 0 <= x < cp c /\ 0 <= s < cn c /\
     ecdsa_sign key r0 s0 bin m = Ok (0, ofZ x, ofZ s) /\
     (0 < s -> ecdsa_verify key (ofZ x) (ofZ s) m = if x <? cn c then Ok 0 else Err (-1))).
Proof. exact (fun id c g d0 q0 alloc kbin H L => named_ecdsa id c g H L d0 q0 alloc kbin). Qed.
Print Assumptions C75_ecdsa.
(** Verification with any public point of the curve: exactly the verification
    equation decides. *)
Theorem C75_verify : forall id c g pvt Q m r s, In (id, c) certified -> ecp_grp_load id = Ok g ->
  on_curve (cp c) (ca c) (cb c) Q -> bytes m -> Z.gcd s (cn c) = 1 ->
  let z := be_val (firstn (8 * used (ofZ (cn c))) m) in
  exists w, 0 <= w < cn c /\ (s * w) mod cn c = 1 /\
  ecdsa_verify {| sa_grp := g; sa_d := pvt; sa_q := ept Q |} (ofZ r) (ofZ s) m =
  if xcoord (ecdsa_point (cp c) (ca c) (cg c) Q (cn c) z r w) mod cn c =? Z.abs r then Ok 0 else Err (-1).
Proof. exact (fun id c g pvt Q m r s H L => named_verify id c g H L pvt Q m r s). Qed.
Print Assumptions C75_verify.
(** secp256r1: loaded, with the base point on the curve; 2 G; and draws *)
Example C75_ex : In (2, secp256r1) certified /\ (exists g, ecp_grp_load 2 = Ok g) /\ draw_for (cn secp256r1) (repeat 17 32) /\
  ec_mul (cp secp256r1) (ca secp256r1) 2 (cg secp256r1) =
    Some (0x7cf27b188d034f7e8a52380304b51ac3c08969e277f21b35a60b48fc47669978,
          0x7775510db8ed040293d9ac69f7430dbba7dade63ce982299e04b79d227873d1).
Proof.
  split; [right; right; left; reflexivity|]. split; [eexists; vm_compute; reflexivity|].
  split; [split; [repeat constructor; unfold byte; lia|vm_compute; reflexivity]|].
  change 2 with (1 + 1). rewrite (ec_mul_add _ _ _ good) by (try lia; exact (proj1 (proj2 domain))). rewrite ec_mul_1.
  apply (double_ok (cp secp256r1) (ca secp256r1) (cb secp256r1) mp mp_ok good _
    (0xa249bcb3191802d3cb56fc75a8731f848e7b2caf080f3477a4e4d904a671af9d, -0x211d1d206a8228ca3f068bcb77b6c66e965b291a72799fab76713dc1b6ea6cd9, 0x66e168103bdfa57cdd53063189a61e37915827bb44d670bd3c287263db86185b, -0xb51838d2fa990fc8a24a572b59edda8bd8fcf1612aa22bdac765f9f95e4f3a0)); [exact (proj1 (proj2 domain))|vm_compute; reflexivity].
Qed.

(** * C76: the hash in an ECDSA signature *)
(** The leftmost bits are taken as in FIPS 186-4 if the order's length is a
    multiple of 64 bits, or if the hash is not longer than the order. *)
Theorem C76_sign_partial : forall id c g d pub r0 s0 bin m k, In (id, c) certified -> ecp_grp_load id = Ok g -> bytes m ->
  (Z.log2 (cn c) + 1) mod 64 = 0 \/ 8 * Z.of_nat (length m) <= Z.log2 (cn c) + 1 ->
  rand_range false 8 (ofZ (cn c)) bin = Ok (ofZ k) -> 0 < k < cn c ->
  exists x y ki, ec_mul (cp c) (ca c) k (cg c) = Some (x, y) /\ 0 <= ki < cn c /\ (k * ki) mod cn c = 1 /\
  ecdsa_sign {| sa_grp := g; sa_d := ofZ d; sa_q := pub |} r0 s0 bin m = Ok (0, ofZ x, ofZ (((d * x + fips_hash (cn c) m) * ki) mod cn c)).
Proof. exact named_sign. Qed.
Print Assumptions C76_sign_partial.
Example C76_ex : map (fun ic => (fst ic, (Z.log2 (cn (snd ic)) + 1) mod 64)) certified = [(0, 0); (1, 32); (2, 0); (5, 0); (6, 33); (7, 0)].
Proof. vm_compute. reflexivity. Qed.
(** Not so for secp224r1 and secp224k1 with a hash of 32 bytes: with every key
    and nonce the signature is not the one of the standard. *)
Theorem C76_refuted : exists m, bytes m /\ length m = 32%nat /\ forall id c g d pub r0 s0 bin k, In (id, c) certified -> id = 1 \/ id = 6 -> ecp_grp_load id = Ok g ->
  rand_range false 8 (ofZ (cn c)) bin = Ok (ofZ k) -> 0 < k < cn c ->
  exists x y ki s, ec_mul (cp c) (ca c) k (cg c) = Some (x, y) /\ 0 <= ki < cn c /\ (k * ki) mod cn c = 1 /\
  ecdsa_sign {| sa_grp := g; sa_d := ofZ d; sa_q := pub |} r0 s0 bin m = Ok (0, ofZ x, ofZ s) /\
  s <> ((d * x + fips_hash (cn c) m) * ki) mod cn c.
Proof.
  exists (repeat 0 31 ++ [1]). split; [repeat constructor; lia|]. split; [reflexivity|].
  intros id c g d pub r0 s0 bin k H I L R K. exact (hash_differs id c g d pub r0 s0 bin k H L I R K).
Qed.
Print Assumptions C76_refuted.
