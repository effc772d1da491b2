(** Properties C09 to C13 and C63: exponentiation, gcd, lcm, inverses, square root. *)
From Verif Require Import Base MpiModel MpiSpec MpiDigits MpiCanon MpiDivModel MpiDiv MpiAlgModel MpiAlg MpiAlg2.

(** *** C09: (modular) exponentiation.  [b^0 mod 1] comes out as 1. *)
Theorem C09_mod_exp_refuted : exists b e m r, canon b /\ canon e /\ canon m /\ 0 <= mval e /\ 0 < mval m /\
  mod_exp b e m = Ok r /\ mval r <> mval b ^ mval e mod mval m.
Proof.
  exists (ofZ 5), (ofZ 0), (ofZ 1), mone. split; [apply canon_ofZ|]. split; [apply canon_ofZ|]. split; [apply canon_ofZ|].
  split; [vm_compute; discriminate|]. split; [reflexivity|]. split; [vm_compute; reflexivity|vm_compute; discriminate].
Qed.
Print Assumptions C09_mod_exp_refuted.

Theorem C09_mod_exp_partial : forall b e m, canon b -> canon e -> canon m -> 0 <= mval e -> 0 < mval m ->
  1 < mval m \/ 0 < mval e ->
  exists r, mod_exp b e m = Ok r /\ canon r /\ mval r = mval b ^ mval e mod mval m.
Proof. exact mod_exp_exact. Qed.
Print Assumptions C09_mod_exp_partial.

Theorem C09_exp : forall b e, canon b -> canon e -> 0 <= mval e ->
  exists r, exp b e = Ok r /\ canon r /\ mval r = mval b ^ mval e.
Proof. exact exp_exact. Qed.
Print Assumptions C09_exp.

Theorem C09_negative_args : forall b e m, canon e -> canon m -> mval e < 0 \/ mval m < 0 -> mod_exp b e m = Err (-1).
Proof. exact mod_exp_err. Qed.
Print Assumptions C09_negative_args.

Example C09_ex : mod_exp (ofZ (-3)) (ofZ 1000) (ofZ (B * 5 + 13)) = Ok (ofZ ((-3) ^ 1000 mod (B * 5 + 13))) /\
  exp (ofZ (-2)) (ofZ 67) = Ok (ofZ (- 2 ^ 67)).
Proof. split; vm_compute; reflexivity. Qed.

(** *** C10: gcd.  Wrong when the second operand is zero. *)
Theorem C10_gcd_refuted : exists jx jy x y r, canon x /\ canon y /\ 0 <= mval x /\ 0 <= mval y /\
  gcd jx jy x y = Ok r /\ mval r <> Z.gcd (mval x) (mval y).
Proof.
  exists 0, 0, (ofZ 6), mzero, mzero. split; [apply canon_ofZ|]. split; [apply (canon_ofZ 0)|].
  split; [discriminate|]. split; [discriminate|]. split; [vm_compute; reflexivity|vm_compute; discriminate].
Qed.
Print Assumptions C10_gcd_refuted.

Theorem C10_gcd_partial : forall jx jy x y, canon x -> canon y -> 0 < mval x -> 0 < mval y ->
  exists r, gcd jx jy x y = Ok r /\ canon r /\ mval r = Z.gcd (mval x) (mval y).
Proof. exact gcd_exact. Qed.
Print Assumptions C10_gcd_partial.

(** Whatever the uninitialised digits hold: gcd(0,y) = y is right, gcd(x,0)
    comes out as 0. *)
Theorem C10_gcd_zero_l : forall jx jy y, 0 < y -> gcd jx jy (ofZ 0) (ofZ y) = Ok (ofZ y).
Proof. exact gcd_0_l. Qed.
Print Assumptions C10_gcd_zero_l.

Theorem C10_gcd_zero_r : forall jx jy x, 0 < x -> gcd jx jy (ofZ x) (ofZ 0) = Ok (ofZ 0).
Proof. exact gcd_0_r. Qed.
Print Assumptions C10_gcd_zero_r.

Example C10_ex : gcd 7 9 (ofZ (2 ^ 70 * 15)) (ofZ (2 ^ 66 * 21)) = Ok (ofZ (2 ^ 66 * 3)).
Proof. vm_compute. reflexivity. Qed.

(** *** C11: lcm. *)
Theorem C11_lcm : forall jx jy x y, canon x -> canon y -> 0 < mval x -> 0 < mval y ->
  exists r, lcm jx jy x y = Ok r /\ canon r /\ mval r = Z.lcm (mval x) (mval y).
Proof. exact lcm_exact. Qed.
Print Assumptions C11_lcm.

Example C11_ex : lcm 0 0 (ofZ (2 ^ 70 * 15)) (ofZ (2 ^ 66 * 21)) = Ok (ofZ (2 ^ 70 * 105)).
Proof. vm_compute. reflexivity. Qed.

(** *** C12: modular inverse; the operand may even be negative. *)
Theorem C12_inv : forall a m, canon a -> canon m -> 0 < mval m -> Z.gcd (mval a) (mval m) = 1 ->
  exists r, inv a m = Ok r /\ canon r /\ 0 <= mval r < mval m /\ (mval a * mval r) mod mval m = 1 mod mval m.
Proof. exact inv_exact. Qed.
Print Assumptions C12_inv.

Theorem C12_inv_none : forall a m, canon a -> canon m -> 0 < mval m -> Z.gcd (mval a) (mval m) <> 1 ->
  inv a m = Err (-1).
Proof. exact inv_none. Qed.
Print Assumptions C12_inv_none.

Example C12_ex : inv (ofZ 3) (ofZ (2 ^ 127 - 1)) = Ok (ofZ 113427455640312821154458202477256070485) /\
  inv (ofZ 6) (ofZ 9) = Err (-1).
Proof. vm_compute. auto. Qed.

(** *** C13: integer square root. *)
Theorem C13_sqrt : forall a, canon a -> 0 <= mval a ->
  exists r, sqrt a = Ok r /\ canon r /\ 0 <= mval r /\ mval r * mval r <= mval a < (mval r + 1) * (mval r + 1).
Proof. exact sqrt_exact. Qed.
Print Assumptions C13_sqrt.

Theorem C13_sqrt_negative : forall a, canon a -> mval a < 0 -> sqrt a = Err (-1).
Proof. exact sqrt_neg. Qed.
Print Assumptions C13_sqrt_negative.

Example C13_ex : sqrt (ofZ ((B + 1) * (B + 1) - 1)) = Ok (ofZ B).
Proof. vm_compute. reflexivity. Qed.

(** *** C63: inverse of a machine word. *)
Theorem C63_long_inv : forall v m, 0 <= v < 2 ^ 64 -> 1 < m < 2 ^ 64 -> Z.gcd v m = 1 ->
  exists r, long_inv v m = Ok r /\ 0 <= r < m /\ (v * r) mod m = 1.
Proof. exact long_inv_some. Qed.
Print Assumptions C63_long_inv.

Theorem C63_long_inv_none : forall v m, 0 <= v < 2 ^ 64 -> 1 < m < 2 ^ 64 -> Z.gcd v m <> 1 -> long_inv v m = Ok 0.
Proof. exact long_inv_none. Qed.
Print Assumptions C63_long_inv_none.

Example C63_ex : long_inv 7 256 = Ok 183 /\ long_inv 2 256 = Ok 0 /\
  long_inv (2 ^ 64 - 3) (2 ^ 64 - 1) = Ok (2 ^ 63 - 1).
Proof. vm_compute. auto. Qed.
