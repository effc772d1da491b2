(** Property C83: the build options do not change the results. *)
From Verif Require Import Base MpiModel MpiSpec MpiMulModel MpiDivModel MpiAlgModel MpiConfModel MpiConf MpiCanon MpiIOModel EcPk NumTh EcpModel EcSpec EcZ EcpSpec Ecp EcpMul.
From Coq Require Import Znumtheory.

(** CRY_MPI_DIV_SMALL: quotient and remainder of the magnitudes *)
Theorem C83_div : forall a b, wf a -> wf b -> div_abs_small a b = div_abs a b.
Proof. exact div_abs_small_eq. Qed.
Print Assumptions C83_div.
Example C83_div_ex : div_abs_small (ofZ (2 ^ 200 + 12345)) (ofZ (- (2 ^ 70 + 3))) = Ok (ofZ ((2 ^ 200 + 12345) / (2 ^ 70 + 3)), ofZ ((2 ^ 200 + 12345) mod (2 ^ 70 + 3))).
Proof. vm_compute. reflexivity. Qed.

(** CRY_MPI_MUL_TOOM3, CRY_MPI_MUL_KARATSUBA, CRY_MPI_MUL_COMBA: products, and
    squares into an object that does not hold a negative number *)
Theorem C83_mul : forall o rs a b, wf a -> wf b -> mul_c o rs a b = mul rs a b.
Proof. exact mul_c_eq. Qed.
Print Assumptions C83_mul.
Theorem C83_sqr : forall o a, wf a -> sqr_c o false a = sqr false a.
Proof. exact sqr_c_eq. Qed.
Print Assumptions C83_sqr.
(** With CRY_MPI_MUL_COMBA the destination keeps its sign (see C03), without it
    the sign is cleared. *)
Theorem C83_sqr_refuted : exists o a, canon a /\ sqr_c o true a = Ok (ofZ 9) /\ sqr true a = Ok (ofZ (- 9)).
Proof. exists {| o_toom3 := true; o_karatsuba := true; o_comba := false |}, (ofZ 3). split; [apply canon_ofZ|]. split; vm_compute; reflexivity. Qed.
Print Assumptions C83_sqr_refuted.
Example C83_mul_ex : mul_c {| o_toom3 := false; o_karatsuba := false; o_comba := false |} true (ofZ (2 ^ 130 - 1)) (ofZ (- (2 ^ 100 - 7))) = Ok (ofZ (- ((2 ^ 130 - 1) * (2 ^ 100 - 7)))).
Proof. vm_compute. reflexivity. Qed.

(** CRY_MPI_INV_EUCLID: the inverse that is there to be found is the same.
    [fuel] bounds the rounds of each loop of the binary algorithm; any number
    from the given one on will do, so the loops end. *)
Theorem C83_inv : forall fuel x m, canon x -> canon m -> 1 < mval m -> Z.gcd (mval x) (mval m) = 1 -> 2 * Z.log2 (mval m) + 4 <= Z.of_nat fuel ->
  inv_bin fuel x m = inv x m.
Proof. exact inv_bin_eq. Qed.
Print Assumptions C83_inv.
Example C83_inv_ex : inv_bin 300 (ofZ (- 3)) (ofZ (2 ^ 127 - 1)) = Ok (ofZ (2 ^ 127 - 1 - 113427455640312821154458202477256070485)).
Proof. vm_compute. reflexivity. Qed.
(** A multiple of the modulus: the binary algorithm never ends, whatever the
    bound on its rounds, where the other one returns -1 (0 for m = 1). *)
Theorem C83_inv_loops_refuted : forall fuel x m, canon x -> canon m -> 0 < mval m -> (mval m | mval x) -> inv_bin fuel x m = Fuel.
Proof. exact inv_bin_loops. Qed.
Print Assumptions C83_inv_loops_refuted.
(** Every other operand with no inverse: the binary algorithm reports success
    where the other one returns -1. *)
Theorem C83_inv_refuted : forall fuel x m, canon x -> canon m -> 0 < mval m -> ~ (mval m | mval x) -> Z.gcd (mval x) (mval m) <> 1 -> 2 * Z.log2 (mval m) + 4 <= Z.of_nat fuel ->
  inv x m = Err (-1) /\ exists r, inv_bin fuel x m = Ok r.
Proof. exact inv_bin_unchecked. Qed.
Print Assumptions C83_inv_refuted.
Example C83_inv_none_ex : inv_bin 20 (ofZ 6) (ofZ 9) = Ok (ofZ 2) /\ inv (ofZ 6) (ofZ 9) = Err (-1) /\ inv_bin 1000 (ofZ 18) (ofZ 9) = Fuel /\ inv (ofZ 18) (ofZ 9) = Err (-1) /\
  inv_bin 1000 (ofZ 5) (ofZ 1) = Fuel /\ inv (ofZ 5) (ofZ 1) = Ok (ofZ 0).
Proof. vm_compute. repeat split. Qed.

(** CRY_ECP_MUL_SLIDING_WIN: multiples of a point none of whose multiples has
    order two *)
Theorem C83_point : forall p a b am G n P k, a_rep am a -> good_curve p a b -> on_curve p a b P -> no_order2 p a P ->
  ecp_mul_plain (egrp p am b G n) (ept P) (ofZ k) = ecp_mul (egrp p am b G n) (ept P) (ofZ k).
Proof.
  intros p a b am G n P k HA HG HP H2. rewrite (ecp_mul_ok p a b am G n P k HA HG HP H2). exact (ecp_mul_plain_ok p a b am G n P k HA HG HP H2).
Qed.
Print Assumptions C83_point.
Lemma ex_prime23 : prime 23. Proof. apply prime_small; [lia|vm_compute; reflexivity]. Qed.
Lemma good_23_1_0 : good_curve 23 1 0. Proof. split; [exact ex_prime23|]. split; [lia|]. vm_compute. discriminate. Qed.
(** (1, 5) has order four: once P is P with one option and an error with the other *)
Theorem C83_point_refuted : exists p a b P G n, good_curve p a b /\ on_curve p a b P /\
  ecp_mul_plain (egrp p (ofZ a) b G n) (ept P) (ofZ 1) = Ok (ept P) /\ ecp_mul (egrp p (ofZ a) b G n) (ept P) (ofZ 1) = Err (-1).
Proof.
  exists 23, 1, 0, (Some (1, 5)), None, 1. split; [exact good_23_1_0|]. split; [cbn; lia|]. split; vm_compute; reflexivity.
Qed.
Print Assumptions C83_point_refuted.
