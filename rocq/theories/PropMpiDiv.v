(** Properties C04, C05, C06, C17: division, modulo, bit lengths. *)
From Verif Require Import Base MpiModel MpiSpec MpiDigits MpiCanon MpiDivModel MpiDiv MpiAlgModel MpiAlg MpiAlg2.

(** *** C04: the Euclidean law on magnitudes. *)
Theorem C04_div_abs : forall a b, wf a -> wf b -> mval b <> 0 ->
  exists q r, div_abs a b = Ok (q, r) /\ wf q /\ wf r /\
    Z.abs (mval a) = Z.abs (mval q) * Z.abs (mval b) + Z.abs (mval r) /\
    Z.abs (mval r) < Z.abs (mval b) /\ 0 <= mval q /\
    (Z.abs (mval b) <= Z.abs (mval a) -> 0 <= mval r).
Proof. exact div_abs_euclid. Qed.
Print Assumptions C04_div_abs.

Theorem C04_div_by_zero : forall wr a b, wf b -> mval b = 0 -> div_gen wr a b = Err (-1).
Proof. exact div_zero. Qed.
Print Assumptions C04_div_by_zero.

Example C04_ex : div_abs (ofZ (B * B * B - 1)) (ofZ (B + 3)) =
  Ok (ofZ ((B * B * B - 1) / (B + 3)), ofZ ((B * B * B - 1) mod (B + 3))).
Proof. vm_compute. reflexivity. Qed.

(** *** C05: signed division.  False in general. *)
Theorem C05_div_refuted : exists a b q r, canon a /\ canon b /\ mval b <> 0 /\ div a b = Ok (q, r) /\
  (mval q <> mval a / mval b \/ mval r <> mval a - mval q * mval b).
Proof.
  exists (ofZ (-6)), (ofZ 2), (ofZ 3), mzero. split; [apply canon_ofZ|]. split; [apply canon_ofZ|].
  split; [vm_compute; discriminate|]. split; [vm_compute; reflexivity|]. left. vm_compute. discriminate.
Qed.
Print Assumptions C05_div_refuted.

(** A positive divisor, and a dividend that is non-negative or not a multiple. *)
Theorem C05_div_partial : forall a b, canon a -> canon b -> 0 < mval b -> 0 <= mval a \/ mval a mod mval b <> 0 ->
  exists q r, div a b = Ok (q, r) /\ canon q /\ canon r /\ mval q = mval a / mval b /\ mval r = mval a mod mval b.
Proof. exact div_floor. Qed.
Print Assumptions C05_div_partial.

(** What it returns for every pair of signs. *)
Theorem C05_div_outcome : forall a b, wf a -> wf b -> mval b <> 0 ->
  exists q r, div a b = Ok (q, r) /\ wf q /\ wf r /\ (canon a -> canon q /\ canon r) /\
    let A := Z.abs (mval a) in let D := Z.abs (mval b) in
    mval q = (if xorb (neg a) (neg b) then if A mod D =? 0 then A / D else - (A / D) - 1 else A / D) /\
    mval r = (if xorb (neg a) (neg b) then if A mod D =? 0 then 0 else D - A mod D
              else if A <? D then mval a else A mod D).
Proof. exact div_outcome. Qed.
Print Assumptions C05_div_outcome.

(** With no remainder destination, operands of different sign dereference NULL. *)
Theorem C05_div_null_remainder_refuted : exists a b, canon a /\ canon b /\ mval b <> 0 /\ div_gen false a b = UB.
Proof.
  exists (ofZ (-6)), (ofZ 2). split; [apply canon_ofZ|]. split; [apply canon_ofZ|].
  split; [vm_compute; discriminate|]. vm_compute. reflexivity.
Qed.
Print Assumptions C05_div_null_remainder_refuted.

(** With the remainder stored over the divisor, the remainder is lost. *)
Theorem C05_div_remainder_over_divisor_refuted : exists a b q r, canon a /\ canon b /\ 0 < mval b /\
  div_rb a b = Ok (q, r) /\ mval r <> mval a mod mval b.
Proof.
  exists (ofZ (-7)), (ofZ 2), (ofZ (-4)), mzero. split; [apply canon_ofZ|]. split; [apply canon_ofZ|].
  split; [reflexivity|]. split; [vm_compute; reflexivity|]. vm_compute. discriminate.
Qed.
Print Assumptions C05_div_remainder_over_divisor_refuted.

Example C05_ex : div (ofZ (-7)) (ofZ 2) = Ok (ofZ (-4), ofZ 1).
Proof. vm_compute. reflexivity. Qed.

(** *** C06: least non-negative residue. *)
Theorem C06_mod : forall a m, wf a -> wf m -> 0 < mval m ->
  exists r, mod_ a m = Ok r /\ wf r /\ mval r = mval a mod mval m /\ (canon a -> canon r).
Proof. exact mod_exact. Qed.
Print Assumptions C06_mod.

Theorem C06_mod_zero : forall a m, wf m -> mval m = 0 -> mod_ a m = Err (-1).
Proof. exact mod_zero. Qed.
Print Assumptions C06_mod_zero.

Example C06_ex : mod_ (ofZ (-1 - B)) (ofZ 10) = Ok (ofZ ((-1 - B) mod 10)) /\ mod_ (ofZ (-20)) (ofZ 10) = Ok mzero.
Proof. vm_compute. auto. Qed.

(** *** C17: bit and byte length, bit test. *)
Theorem C17_count_bits : forall a, wf a ->
  count_bits a = (if mval a =? 0 then 0 else Z.log2 (Z.abs (mval a)) + 1).
Proof. exact count_bits_mval. Qed.
Print Assumptions C17_count_bits.

Theorem C17_count_bytes : forall a, wf a ->
  2 ^ (8 * (count_bytes a - 1)) <= Z.abs (mval a) < 2 ^ (8 * count_bytes a) \/ (mval a = 0 /\ count_bytes a = 0).
Proof. exact count_bytes_mval. Qed.
Print Assumptions C17_count_bytes.

Theorem C17_bit_test : forall a i, wf a -> 0 <= i < 64 * Z.of_nat (used a) ->
  is_bit_set a i = Ok (Z.testbit (Z.abs (mval a)) i).
Proof. exact bit_test_mval. Qed.
Print Assumptions C17_bit_test.

(** Beyond the digits in use the macro reads memory the object does not define. *)
Theorem C17_bit_test_refuted : exists a i, canon a /\ 0 <= i /\ is_bit_set a i = UB.
Proof. exists (ofZ 5), 64. split; [apply canon_ofZ|]. split; [discriminate|vm_compute; reflexivity]. Qed.
Print Assumptions C17_bit_test_refuted.

Example C17_ex : count_bits (ofZ (- 2 ^ 100)) = 101 /\ count_bytes (ofZ 256) = 2 /\ is_bit_set (ofZ (- 2 ^ 100)) 100 = Ok true.
Proof. vm_compute. auto. Qed.
