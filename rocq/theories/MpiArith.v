(** The arithmetic statements in the form the property files quote. *)
From Verif Require Import Base Bits MpiModel MpiSpec MpiDigits MpiMulModel MpiMul MpiMul2 MpiSqr MpiCanon.

Lemma add_exact a b : wf a -> wf b ->
  exists r, add a b = Ok r /\ wf r /\ mval r = mval a + mval b /\ (canon a \/ canon b -> canon r).
Proof.
  intros Wa Wb. destruct (add_spec a b Wa Wb) as (r & E & W & V & C).
  exists r. repeat split; try apply W; auto. destruct H as [[_ H]|[_ H]]; apply C; auto.
Qed.

Lemma sub_exact a b : wf a -> wf b ->
  exists r, sub a b = Ok r /\ wf r /\ mval r = mval a - mval b /\ (canon a -> canon r).
Proof.
  intros Wa Wb. destruct (sub_spec a b Wa Wb) as (r & E & W & V & C).
  exists r. repeat split; try apply W; auto. destruct H as [_ H]. exact (C H).
Qed.

Lemma shr_mval a n : wf a -> 0 <= n -> wf (shr a n) /\ mval (shr a n) = Z.quot (mval a) (2 ^ n).
Proof.
  intros W Hn. destruct (shr_spec a n W Hn) as (W' & V & N). split; auto.
  pose proof (val_nonneg _ (proj1 W)). pose proof (pow2_pos n Hn).
  assert (Q : Z.quot (mval a) (2 ^ n) = sg a * (val (dg a) / 2 ^ n)).
  { unfold mval, sg. destruct (neg a).
    - rewrite Z.quot_opp_l, Z.quot_div_nonneg by lia. lia.
    - rewrite Z.quot_div_nonneg by lia. lia. }
  rewrite Q, <- V, mval_sg. destruct N as [N|[Z0 N]].
  - unfold sg. rewrite N. reflexivity.
  - rewrite Z0. cbn [val]. ring.
Qed.

Lemma mul_abs_algs rs a b : wf a -> wf b ->
  val (dg (mul_baseline a b)) = val (dg a) * val (dg b) /\
  val (dg (mul_comba rs a b)) = val (dg a) * val (dg b) /\
  (exists r, karatsuba mul_abs a b = Ok r /\ wf r /\ mval r = val (dg a) * val (dg b)) /\
  (exists r, toom3 mul_abs a b = Ok r /\ wf r /\ mval r = mval a * mval b) /\
  (exists r, mul_abs rs a b = Ok r /\ wf r /\ val (dg r) = val (dg a) * val (dg b)).
Proof.
  intros Wa Wb. pose proof (proj1 Wa) as Da. pose proof (proj1 Wb) as Db.
  split; [apply mul_baseline_ok; auto|]. split; [apply mul_comba_ok; auto|].
  split; [|split].
  - destruct (karatsuba_ok mul_abs a b Wa Wb) as (r & E & W & V & M & _).
    { intros. apply mul_abs_spec; auto. }
    exists r. auto.
  - destruct (toom3_ok mul_abs a b Wa Wb) as (r & E & W & M & _).
    { intros. apply mul_abs_spec; auto. }
    exists r. auto.
  - destruct (mul_abs_spec rs a b Wa Wb) as (r & E & W & V & _). exists r. auto.
Qed.

Lemma sqr_exact a : wf a -> exists r, sqr false a = Ok r /\ wf r /\ mval r = mval a * mval a.
Proof. intro W. destruct (sqr_spec false a W) as (r & E & W' & _ & V). exists r. auto. Qed.

Lemma sqr_mag rs a : wf a -> exists r, sqr rs a = Ok r /\ wf r /\ Z.abs (mval r) = mval a * mval a.
Proof.
  intro W. destruct (sqr_spec rs a W) as (r & E & W' & V & _). exists r. split; auto. split; auto.
  rewrite <- V. pose proof (val_nonneg _ (proj1 W')). unfold mval. destruct (neg r); lia.
Qed.

Lemma cmp_abs_mval a b : wf a -> wf b -> cmp_abs a b = Z.sgn (Z.abs (mval a) - Z.abs (mval b)).
Proof. intros. rewrite cmp_abs_spec, !abs_mval by auto. reflexivity. Qed.
