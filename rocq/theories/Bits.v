(** Bit-level facts about integers used throughout. *)
From Verif Require Import Base.

Lemma lor_add_disjoint a b : Z.land a b = 0 -> Z.lor a b = a + b.
Proof.
  intro H. pose proof (Z.add_nocarry_lxor a b H) as E. rewrite E.
  apply Z.bits_inj'. intros n Hn. rewrite Z.lor_spec, Z.lxor_spec.
  apply (f_equal (fun z => Z.testbit z n)) in H. rewrite Z.land_spec, Z.bits_0 in H.
  destruct (Z.testbit a n), (Z.testbit b n); cbn in *; congruence.
Qed.

Lemma testbit_small b n i : 0 <= b < 2 ^ n -> n <= i -> Z.testbit b i = false.
Proof.
  intros Hb Hi. destruct (Z.eq_dec b 0) as [->|N]; [apply Z.bits_0|].
  apply Z.bits_above_log2; [lia|]. apply Z.log2_lt_pow2; [lia|].
  destruct (Z.le_gt_cases 0 n) as [Hn|Hn].
  - apply Z.lt_le_trans with (2 ^ n); [lia|]. apply Z.pow_le_mono_r; lia.
  - rewrite Z.pow_neg_r in Hb by lia. lia.
Qed.

Lemma land_shifted_small a b n : 0 <= n -> 0 <= b < 2 ^ n -> Z.land (a * 2 ^ n) b = 0.
Proof.
  intros Hn Hb. apply Z.bits_inj'. intros i Hi. rewrite Z.land_spec, Z.bits_0.
  destruct (Z.lt_ge_cases i n).
  - rewrite Z.mul_pow2_bits_low by lia. reflexivity.
  - rewrite (testbit_small b n i) by lia. apply andb_false_r.
Qed.

Lemma lor_shifted_small a b n : 0 <= n -> 0 <= b < 2 ^ n -> Z.lor (a * 2 ^ n) b = a * 2 ^ n + b.
Proof. intros. apply lor_add_disjoint, land_shifted_small; auto. Qed.

Lemma lor_small_shifted a b n : 0 <= n -> 0 <= b < 2 ^ n -> Z.lor b (a * 2 ^ n) = b + a * 2 ^ n.
Proof. intros. rewrite Z.lor_comm, lor_shifted_small by auto. ring. Qed.

Lemma land_mask a n : 0 <= n -> Z.land a (Z.shiftl 1 n - 1) = a mod 2 ^ n.
Proof.
  intros. replace (Z.shiftl 1 n - 1) with (Z.ones n).
  - apply Z.land_ones; auto.
  - rewrite Z.ones_equiv, Z.shiftl_1_l. lia.
Qed.

Lemma pow2_split n m : 0 <= m <= n -> 2 ^ n = 2 ^ m * 2 ^ (n - m).
Proof. intros. rewrite <- Z.pow_add_r by lia. f_equal. lia. Qed.

Lemma pow2_pos n : 0 <= n -> 0 < 2 ^ n.
Proof. intros. apply Z.pow_pos_nonneg; lia. Qed.

(** (x * 2^d) mod 2^w keeps the low w-d bits of x. *)
Lemma shl_mod x d w : 0 <= d <= w -> (x * 2 ^ d) mod 2 ^ w = (x mod 2 ^ (w - d)) * 2 ^ d.
Proof.
  intros. rewrite (pow2_split w d) by lia. rewrite (Z.mul_comm (2 ^ d) (2 ^ (w - d))).
  apply Z.mul_mod_distr_r.
  - pose proof (pow2_pos (w - d)); lia.
  - pose proof (pow2_pos d); lia.
Qed.

Lemma lxor_bound n a b : 0 <= n -> 0 <= a < 2 ^ n -> 0 <= b < 2 ^ n -> 0 <= Z.lxor a b < 2 ^ n.
Proof.
  intros Hn Ha Hb. split; [apply Z.lxor_nonneg; lia|].
  destruct (Z.eq_dec (Z.lxor a b) 0) as [->|N]; [apply pow2_pos; auto|].
  assert (0 <= Z.lxor a b) by (apply Z.lxor_nonneg; lia).
  apply Z.log2_lt_pow2; [lia|].
  destruct (Z.le_gt_cases n (Z.log2 (Z.lxor a b))) as [L|L]; [|lia].
  exfalso. pose proof (Z.bit_log2 (Z.lxor a b) ltac:(lia)) as T.
  rewrite Z.lxor_spec, (testbit_small a n), (testbit_small b n) in T by lia. discriminate.
Qed.

Lemma lor_bound n a b : 0 <= n -> 0 <= a < 2 ^ n -> 0 <= b < 2 ^ n -> 0 <= Z.lor a b < 2 ^ n.
Proof.
  intros Hn Ha Hb. split; [apply Z.lor_nonneg; lia|].
  destruct (Z.eq_dec (Z.lor a b) 0) as [->|N]; [apply pow2_pos; auto|].
  assert (0 <= Z.lor a b) by (apply Z.lor_nonneg; lia).
  apply Z.log2_lt_pow2; [lia|].
  destruct (Z.le_gt_cases n (Z.log2 (Z.lor a b))) as [L|L]; [|lia].
  exfalso. pose proof (Z.bit_log2 (Z.lor a b) ltac:(lia)) as T.
  rewrite Z.lor_spec, (testbit_small a n), (testbit_small b n) in T by lia. discriminate.
Qed.

Lemma land_bound n a b : 0 <= n -> 0 <= a < 2 ^ n -> 0 <= Z.land a b < 2 ^ n.
Proof.
  intros Hn Ha. assert (0 <= Z.land a b) by (apply Z.land_nonneg; lia). split; [lia|].
  destruct (Z.eq_dec (Z.land a b) 0) as [->|N]; [apply pow2_pos; auto|].
  apply Z.log2_lt_pow2; [lia|].
  destruct (Z.le_gt_cases n (Z.log2 (Z.land a b))) as [L|L]; [|lia].
  exfalso. pose proof (Z.bit_log2 (Z.land a b) ltac:(lia)) as T.
  rewrite Z.land_spec, (testbit_small a n) in T by lia. discriminate.
Qed.

Lemma shiftr_bound n m a : 0 <= m -> 0 <= n -> 0 <= a < 2 ^ (n + m) -> 0 <= Z.shiftr a m < 2 ^ n.
Proof.
  intros Hm Hn Ha. rewrite Z.shiftr_div_pow2 by auto. split.
  - apply Z.div_pos; [lia|apply pow2_pos; auto].
  - apply Z.div_lt_upper_bound; [apply pow2_pos; auto|].
    rewrite <- Z.pow_add_r by lia. replace (m + n) with (n + m) by lia. lia.
Qed.
