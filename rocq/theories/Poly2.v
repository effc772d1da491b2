(** Facts about polynomials over GF(2). *)
From Verif Require Import Base Bits Poly2Spec.

(** Equality of two exclusive-or combinations of the same terms. *)
Ltac xor_solve := let i := fresh in apply Z.bits_inj'; intros i _; rewrite ?Z.lxor_spec, ?Z.bits_0;
  repeat match goal with |- context [Z.testbit ?a i] => destruct (Z.testbit a i) end; reflexivity.

Lemma clmul_0_l b : clmul 0 b = 0. Proof. reflexivity. Qed.
Lemma clmul_1_l b : clmul 1 b = b. Proof. reflexivity. Qed.
Lemma clmul_even a b : clmul (2 * a) b = 2 * clmul a b.
Proof. destruct a; reflexivity. Qed.
Lemma clmul_odd a b : 0 <= a -> clmul (2 * a + 1) b = Z.lxor b (2 * clmul a b).
Proof. destruct a as [|p|p]; intro H; [cbn; rewrite Z.lxor_0_r; reflexivity|reflexivity|lia]. Qed.

Lemma clmul_nonneg a b : 0 <= b -> 0 <= clmul a b.
Proof.
  intro Hb. destruct a as [|p|p]; cbn; try lia. induction p; cbn [pclmul]; auto; [|lia].
  apply Z.lxor_nonneg. lia.
Qed.

Lemma lxor_double a b : Z.lxor (2 * a) (2 * b) = 2 * Z.lxor a b.
Proof. rewrite <- !(Z.mul_comm _ 2), <- !(Z.shiftl_mul_pow2 _ 1) by lia. rewrite Z.shiftl_lxor. reflexivity. Qed.
Lemma lxor_double_1 a b : Z.lxor (2 * a + 1) (2 * b) = 2 * Z.lxor a b + 1.
Proof.
  apply Z.bits_inj'. intros i Hi. destruct (Z.eq_dec i 0) as [->|N].
  - rewrite Z.lxor_spec, !Z.testbit_odd_0, Z.testbit_even_0. reflexivity.
  - replace i with (Z.succ (Z.pred i)) by lia. rewrite Z.lxor_spec, !Z.testbit_odd_succ, Z.testbit_even_succ, Z.lxor_spec by lia. reflexivity.
Qed.
Lemma lxor_double_11 a b : Z.lxor (2 * a + 1) (2 * b + 1) = 2 * Z.lxor a b.
Proof.
  apply Z.bits_inj'. intros i Hi. destruct (Z.eq_dec i 0) as [->|N].
  - rewrite Z.lxor_spec, !Z.testbit_odd_0, Z.testbit_even_0. reflexivity.
  - replace i with (Z.succ (Z.pred i)) by lia. rewrite Z.lxor_spec, !Z.testbit_odd_succ, Z.testbit_even_succ, Z.lxor_spec by lia. reflexivity.
Qed.
Lemma parity_split a : exists a' (b : bool), a = if b then 2 * a' + 1 else 2 * a'.
Proof. exists (a / 2), (Z.odd a). pose proof (Z.div_mod a 2 ltac:(lia)) as D. rewrite Zmod_odd in D. destruct (Z.odd a); lia. Qed.

Lemma clmul_lxor_l_bd n g : forall a b, 0 <= a < 2 ^ Z.of_nat n -> 0 <= b < 2 ^ Z.of_nat n ->
  clmul (Z.lxor a b) g = Z.lxor (clmul a g) (clmul b g).
Proof.
  induction n as [|n IH]; intros a b Ha Hb.
  - change (Z.of_nat 0) with 0 in *. rewrite Z.pow_0_r in *. replace a with 0 by lia. replace b with 0 by lia. reflexivity.
  - rewrite Nat2Z.inj_succ, Z.pow_succ_r in Ha, Hb by lia.
    destruct (parity_split a) as (a' & x & ->). destruct (parity_split b) as (b' & y & ->).
    assert (0 <= Z.lxor a' b') by (apply Z.lxor_nonneg; destruct x, y; lia).
    destruct x, y.
    + rewrite lxor_double_11, clmul_even, !clmul_odd, IH by lia. rewrite <- lxor_double. xor_solve.
    + rewrite lxor_double_1, clmul_even, !clmul_odd, IH by lia. rewrite <- lxor_double. xor_solve.
    + rewrite Z.lxor_comm, lxor_double_1, clmul_even, !clmul_odd, IH by (try lia; apply Z.lxor_nonneg; lia).
      rewrite <- lxor_double. xor_solve.
    + rewrite lxor_double, !clmul_even, IH by lia. symmetry. apply lxor_double.
Qed.

Lemma bound_pow a : 0 <= a -> exists n, a < 2 ^ Z.of_nat n.
Proof. intro H. exists (Z.to_nat (Z.log2_up (a + 1))). rewrite Z2Nat.id by apply Z.log2_up_nonneg.
  destruct (Z.eq_dec a 0) as [->|N]; [cbn; lia|]. pose proof (Z.log2_up_spec (a + 1) ltac:(lia)). lia. Qed.
Lemma clmul_lxor_l a b g : 0 <= a -> 0 <= b -> clmul (Z.lxor a b) g = Z.lxor (clmul a g) (clmul b g).
Proof.
  intros Ha Hb. destruct (bound_pow a Ha) as (n & Hn). destruct (bound_pow b Hb) as (m & Hm).
  apply (clmul_lxor_l_bd (Nat.max n m)); split; auto; eapply Z.lt_le_trans; eauto; apply Z.pow_le_mono_r; lia.
Qed.

Lemma clmul_lxor_r a b c : clmul a (Z.lxor b c) = Z.lxor (clmul a b) (clmul a c).
Proof.
  destruct a as [|p|p]; auto. cbn [clmul]. induction p as [p IH|p IH|]; cbn [pclmul]; auto.
  - rewrite IH, <- lxor_double. xor_solve.
  - rewrite IH, lxor_double. reflexivity.
Qed.

(** The top coefficient of a product. *)
Lemma pclmul_top p g k : 0 <= k -> 0 <= g < 2 ^ (k + 1) -> Z.testbit g k = true ->
  0 <= pclmul p g < 2 ^ (Z.log2 (Zpos p) + k + 1) /\ Z.testbit (pclmul p g) (Z.log2 (Zpos p) + k) = true.
Proof.
  intros Hk Hg T. induction p as [p [IB IT]|p [IB IT]|].
  - cbn [pclmul]. rewrite Pos2Z.inj_xI, Z.log2_succ_double by lia. pose proof (Z.log2_nonneg (Zpos p)) as L.
    set (X := pclmul p g) in *. replace (Z.succ (Z.log2 (Zpos p)) + k + 1) with (Z.succ (Z.log2 (Zpos p) + k + 1)) by lia.
    rewrite Z.pow_succ_r by lia. split.
    + rewrite <- Z.pow_succ_r by lia. apply lxor_bound; rewrite ?Z.pow_succ_r by lia; try lia.
      split; [lia|]. eapply Z.lt_le_trans; [apply Hg|]. rewrite <- Z.pow_succ_r by lia. apply Z.pow_le_mono_r; lia.
    + rewrite Z.lxor_spec. rewrite (testbit_small g (k + 1)) by lia. cbn [xorb].
      replace (Z.succ (Z.log2 (Zpos p)) + k) with (Z.succ (Z.log2 (Zpos p) + k)) by lia. rewrite Z.double_bits_succ, IT. auto.
  - cbn [pclmul]. rewrite (Pos2Z.inj_xO p), Z.log2_double by lia. pose proof (Z.log2_nonneg (Zpos p)) as L.
    replace (Z.succ (Z.log2 (Zpos p)) + k + 1) with (Z.succ (Z.log2 (Zpos p) + k + 1)) by lia.
    rewrite Z.pow_succ_r by lia. split; [lia|].
    replace (Z.succ (Z.log2 (Zpos p)) + k) with (Z.succ (Z.log2 (Zpos p) + k)) by lia. rewrite Z.double_bits_succ. auto.
  - cbn [pclmul]. change (Z.log2 1) with 0. rewrite !Z.add_0_l. auto.
Qed.

(** Remainders are unique. *)
Lemma is_rem_unique w g a r r' : 0 <= w -> 0 <= g < 2 ^ (w + 1) -> Z.testbit g w = true ->
  is_rem w g a r -> is_rem w g a r' -> r = r'.
Proof.
  intros Hw Hg T (Hr & q & Hq & E) (Hr' & q' & Hq' & E').
  assert (X : clmul (Z.lxor q q') g = Z.lxor r r').
  { rewrite clmul_lxor_l by auto. apply Z.lxor_eq. subst a.
    assert (Z.lxor (Z.lxor (clmul q g) r) (Z.lxor (clmul q' g) r') = 0) as N by (rewrite E'; apply Z.lxor_nilpotent).
    rewrite <- N. clear. xor_solve. }
  pose proof (lxor_bound w r r' Hw Hr Hr') as BD.
  destruct (Z.lxor q q') as [|p|p] eqn:EQ.
  - cbn in X. symmetry in X. apply Z.lxor_eq; auto.
  - exfalso. cbn [clmul] in X. destruct (pclmul_top p g w Hw Hg T) as [_ TB]. rewrite X in TB.
    pose proof (Z.log2_nonneg (Zpos p)). rewrite (testbit_small _ w) in TB by lia. discriminate.
  - assert (0 <= Z.lxor q q') by (apply Z.lxor_nonneg; lia). lia.
Qed.

Lemma is_rem_same w g a : 0 <= a < 2 ^ w -> is_rem w g a a.
Proof. intro H. split; auto. exists 0. split; [lia|]. apply Z.lxor_0_l. Qed.
