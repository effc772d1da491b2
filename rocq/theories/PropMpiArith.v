(** Properties C01, C02, C03, C07, C08: integer arithmetic. *)
From Verif Require Import Base MpiModel MpiSpec MpiDigits MpiMulModel MpiMul MpiMul2 MpiSqr MpiCanon MpiArith.

(** *** C01: addition and subtraction are exact, in normal form. *)
Theorem C01_add : forall a b, wf a -> wf b ->
  exists r, add a b = Ok r /\ wf r /\ mval r = mval a + mval b /\ (canon a \/ canon b -> canon r).
Proof. exact add_exact. Qed.
Print Assumptions C01_add.

Theorem C01_sub : forall a b, wf a -> wf b ->
  exists r, sub a b = Ok r /\ wf r /\ mval r = mval a - mval b /\ (canon a -> canon r).
Proof. exact sub_exact. Qed.
Print Assumptions C01_sub.

Example C01_ex : canon (ofZ (1 - B * B)) /\ ofZ (1 - B * B) = mkmpi true [B - 1; B - 1] /\
  add (mkmpi true [B - 1; B - 1]) (mkmpi true [1]) = Ok (mkmpi true [0; 0; 1]) /\
  sub (mkmpi false [0; 1]) (mkmpi false [1]) = Ok (mkmpi false [B - 1]).
Proof. split; [apply canon_ofZ|]. vm_compute. auto. Qed.

(** *** C02: multiplication is exact, by whichever algorithm. *)
Theorem C02_mul : forall rs a b, wf a -> wf b ->
  exists r, mul rs a b = Ok r /\ canon r /\ mval r = mval a * mval b.
Proof. exact mul_spec. Qed.
Print Assumptions C02_mul.

Theorem C02_mul_algorithms : forall rs a b, wf a -> wf b ->
  val (dg (mul_baseline a b)) = val (dg a) * val (dg b) /\
  val (dg (mul_comba rs a b)) = val (dg a) * val (dg b) /\
  (exists r, karatsuba mul_abs a b = Ok r /\ wf r /\ mval r = val (dg a) * val (dg b)) /\
  (exists r, toom3 mul_abs a b = Ok r /\ wf r /\ mval r = mval a * mval b) /\
  (exists r, mul_abs rs a b = Ok r /\ wf r /\ val (dg r) = val (dg a) * val (dg b)).
Proof. exact mul_abs_algs. Qed.
Print Assumptions C02_mul_algorithms.

(** The Comba column accumulator is three machine words; its wrap-around is
    unreachable below 2^64 digits. *)
Theorem C02_comba_no_wrap : forall rs a b, digits (dg a) -> digits (dg b) -> Z.of_nat (used b) < B ->
  mul_comba_w rs a b = mul_comba rs a b.
Proof. exact mul_comba_w_eq. Qed.
Print Assumptions C02_comba_no_wrap.

Example C02_ex : mul true (mkmpi true [B - 1; B - 1]) (mkmpi false [B - 1]) = Ok (mkmpi true [1; B - 1; B - 2]).
Proof. vm_compute. reflexivity. Qed.

(** *** C03: squaring.  False as stated: for operands up to 64 digits the
    destination keeps the sign it had before the call. *)
Theorem C03_sqr_refuted : exists rs a r, canon a /\ sqr rs a = Ok r /\ mval r <> mval a * mval a.
Proof. exists true, mone, (mkmpi true [1]). split; [apply (canon_ofZ 1)|]. split; [vm_compute; reflexivity|vm_compute; discriminate]. Qed.
Print Assumptions C03_sqr_refuted.

(** Correct for every non-negative prior destination. *)
Theorem C03_sqr_partial : forall a, wf a -> exists r, sqr false a = Ok r /\ wf r /\ mval r = mval a * mval a.
Proof. exact sqr_exact. Qed.
Print Assumptions C03_sqr_partial.

(** For every prior destination the magnitude is right. *)
Theorem C03_sqr_magnitude : forall rs a, wf a ->
  exists r, sqr rs a = Ok r /\ wf r /\ Z.abs (mval r) = mval a * mval a.
Proof. exact sqr_mag. Qed.
Print Assumptions C03_sqr_magnitude.

(** The exact extent of the defect. *)
Theorem C03_sqr_stale_sign : forall rs a, wf a -> (0 < used a <= 64)%nat ->
  exists r, sqr rs a = Ok r /\ mval r = if rs then - (mval a * mval a) else mval a * mval a.
Proof. exact sqr_small. Qed.
Print Assumptions C03_sqr_stale_sign.

Theorem C03_sqr_baseline : forall a, wf a ->
  exists r, sqr_baseline a = Ok r /\ wf r /\ mval r = mval a * mval a.
Proof. exact sqr_baseline_ok. Qed.
Print Assumptions C03_sqr_baseline.

Example C03_ex :
  exists r, sqr false (mkmpi true [B - 1; 7]) = Ok r /\ mval r = (8 * B - 1) * (8 * B - 1).
Proof. eexists. split; vm_compute; reflexivity. Qed.

(** *** C07: comparison. *)
Theorem C07_cmp_partial : forall a b, canon a -> canon b -> cmp a b = Z.sgn (mval a - mval b).
Proof. exact cmp_spec. Qed.
Print Assumptions C07_cmp_partial.

Theorem C07_cmp_abs : forall a b, wf a -> wf b -> cmp_abs a b = Z.sgn (Z.abs (mval a) - Z.abs (mval b)).
Proof. exact cmp_abs_mval. Qed.
Print Assumptions C07_cmp_abs.

(** Shifting -1 right by one leaves a zero with a negative sign, which compares
    below zero. *)
Theorem C07_cmp_refuted : exists a n, canon a /\ mval (shr a n) = 0 /\
  cmp (shr a n) mzero <> Z.sgn (mval (shr a n) - mval mzero).
Proof. exists (ofZ (-1)), 1. split; [apply canon_ofZ|]. split; [vm_compute; reflexivity|vm_compute; discriminate]. Qed.
Print Assumptions C07_cmp_refuted.

Example C07_ex : cmp (ofZ (- B)) (ofZ (-1)) = -1 /\ canon (ofZ (- B)) /\ cmp_abs (ofZ (- B)) (ofZ (-1)) = 1.
Proof. split; [vm_compute; reflexivity|]. split; [apply canon_ofZ|vm_compute; reflexivity]. Qed.

(** *** C08: shifts. *)
Theorem C08_shl : forall a n, wf a -> 0 <= n -> wf (shl a n) /\ mval (shl a n) = mval a * 2 ^ n.
Proof. exact shl_mval. Qed.
Print Assumptions C08_shl.

Theorem C08_shr : forall a n, wf a -> 0 <= n -> wf (shr a n) /\ mval (shr a n) = Z.quot (mval a) (2 ^ n).
Proof. exact shr_mval. Qed.
Print Assumptions C08_shr.

Example C08_ex : shr (shl (ofZ (-5)) 131) 132 = ofZ (-2) /\ shl (ofZ 3) 64 = mkmpi false [0; 3] /\
  shr (ofZ (2 ^ 70)) 1000 = mzero.
Proof. vm_compute. repeat split. Qed.
