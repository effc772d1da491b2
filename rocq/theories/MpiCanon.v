(** The canonical representation as a function, and the operations on it. *)
From Verif Require Import Base Bits MpiModel MpiSpec MpiDigits MpiMulModel MpiMul MpiMul2.

(** *** Canonical objects *)
Lemma canon_eq a b : canon a -> canon b -> mval a = mval b -> a = b.
Proof.
  intros [[Da Na] Ca] [[Db Nb] Cb] E.
  pose proof (val_nonneg _ Da) as Pa. pose proof (val_nonneg _ Db) as Pb. unfold mval in E.
  assert (V : val (dg a) = val (dg b)) by (destruct (neg a), (neg b); lia).
  assert (D : dg a = dg b) by (apply val_inj; auto).
  destruct a as [sa la], b as [sb lb]; cbn [neg dg] in *. subst lb. f_equal.
  destruct (Z.eq_dec (val la) 0) as [Z0|Z0].
  - apply normal_val_zero in Z0; auto. rewrite Ca, Cb by auto. reflexivity.
  - destruct sa, sb; auto; lia.
Qed.

Lemma canon_nonneg a : canon a -> 0 <= mval a -> neg a = false /\ val (dg a) = mval a.
Proof.
  intros [[Da Na] Ca] H. pose proof (val_nonneg _ Da) as Pa. unfold mval in *.
  destruct (neg a) eqn:E; auto. assert (Z0 : val (dg a) = 0) by lia. apply normal_val_zero in Z0; auto.
  apply Ca in Z0. congruence.
Qed.

Lemma canon_neg a : canon a -> neg a = (mval a <? 0).
Proof.
  intros [[Da Na] Ca]. pose proof (val_nonneg _ Da) as Pa. unfold mval in *.
  destruct (neg a) eqn:E; [|lia]. assert (val (dg a) <> 0); [|lia].
  intro Z0. apply normal_val_zero in Z0; auto. apply Ca in Z0. congruence.
Qed.

Lemma canon_wf a : canon a -> wf a. Proof. intros [H _]; exact H. Qed.
Global Hint Resolve canon_wf : core.

Lemma wf_canon a : wf a -> neg a = false -> canon a.
Proof. intros W N. split; auto. Qed.

Lemma to_digs_ok f : forall z, 0 <= z < B ^ Z.of_nat f ->
  val (to_digs f z) = z /\ digits (to_digs f z) /\ normal (to_digs f z).
Proof.
  induction f as [|f IH]; intros z Hz.
  - cbn [to_digs val]. change (Z.of_nat 0) with 0 in Hz. rewrite Z.pow_0_r in Hz. split; [lia|]. split; auto.
  - cbn [to_digs]. destruct (Z.leb_spec z 0) as [L|L].
    + cbn [val]. split; [lia|]. split; auto.
    + rewrite Nat2Z.inj_succ, Z.pow_succ_r in Hz by lia.
      pose proof B_pos as HB.
      destruct (IH (z / B)) as (V & D & N).
      { split; [apply Z.div_pos; lia|apply Z.div_lt_upper_bound; lia]. }
      cbn [val]. rewrite V. pose proof (Z.div_mod z B ltac:(lia)). pose proof (Z.mod_pos_bound z B HB).
      split; [lia|]. split; [apply digits_cons; auto|].
      destruct (to_digs f (z / B)) as [|e l] eqn:E.
      * apply normal_one. cbn [val] in V. lia.
      * apply normal_cons. exact N.
Qed.

Lemma ofZ_ok z : canon (ofZ z) /\ mval (ofZ z) = z.
Proof.
  unfold ofZ.
  set (n := Z.to_nat (Z.log2 (Z.abs z) / 64)).
  destruct (to_digs_ok (S n) (Z.abs z)) as (V & D & N).
  { split; [lia|]. rewrite Bn_pow2. destruct (Z.eq_dec z 0) as [->|Hz]; [reflexivity|].
    pose proof (Z.log2_spec (Z.abs z) ltac:(lia)) as [_ L]. eapply Z.lt_le_trans; [exact L|].
    apply Z.pow_le_mono_r; [lia|]. pose proof (Z.log2_nonneg (Z.abs z)).
    pose proof (Z.div_mod (Z.log2 (Z.abs z)) 64 ltac:(lia)). pose proof (Z.mod_pos_bound (Z.log2 (Z.abs z)) 64 ltac:(lia)).
    assert (0 <= Z.log2 (Z.abs z) / 64) by (apply Z.div_pos; lia). unfold n. lia. }
  split.
  - split; [split; auto|]. intro E. cbn [neg dg] in *. rewrite E in V. cbn [val] in V. lia.
  - unfold mval. cbn [neg dg]. rewrite V. destruct (Z.ltb_spec z 0); lia.
Qed.

Lemma canon_ofZ z : canon (ofZ z). Proof. apply ofZ_ok. Qed.
Lemma mval_ofZ z : mval (ofZ z) = z. Proof. apply ofZ_ok. Qed.
Global Hint Resolve canon_ofZ : core.
Lemma canon_is_ofZ a : canon a -> a = ofZ (mval a).
Proof. intro C. apply canon_eq; auto. rewrite mval_ofZ. reflexivity. Qed.
Lemma is_ofZ a z : canon a -> mval a = z -> a = ofZ z.
Proof. intros C <-. apply canon_is_ofZ; auto. Qed.

Lemma ofZ_neg z : neg (ofZ z) = (z <? 0). Proof. reflexivity. Qed.
Lemma ofZ_val z : val (dg (ofZ z)) = Z.abs z.
Proof. pose proof (mval_ofZ z) as H. unfold mval in H. rewrite ofZ_neg in H. destruct (Z.ltb_spec z 0); lia. Qed.
Lemma ofZ_0 : ofZ 0 = mzero. Proof. reflexivity. Qed.
Lemma ofZ_1 : ofZ 1 = mone. Proof. reflexivity. Qed.

Lemma add_ofZ x y : add (ofZ x) (ofZ y) = Ok (ofZ (x + y)).
Proof.
  destruct (add_spec (ofZ x) (ofZ y)) as (r & E & W & V & C); auto. rewrite !mval_ofZ in V.
  rewrite E. f_equal. apply is_ofZ; auto. split; auto. apply C. left. exact (proj2 (canon_ofZ x)).
Qed.
Lemma sub_ofZ x y : sub (ofZ x) (ofZ y) = Ok (ofZ (x - y)).
Proof.
  destruct (sub_spec (ofZ x) (ofZ y)) as (r & E & W & V & C); auto. rewrite !mval_ofZ in V.
  rewrite E. f_equal. apply is_ofZ; auto. split; auto. apply C. exact (proj2 (canon_ofZ x)).
Qed.
Lemma cmp_ofZ x y : cmp (ofZ x) (ofZ y) = Z.sgn (x - y).
Proof. rewrite cmp_spec by auto. rewrite !mval_ofZ. reflexivity. Qed.
Lemma cmp_abs_ofZ x y : cmp_abs (ofZ x) (ofZ y) = Z.sgn (Z.abs x - Z.abs y).
Proof. rewrite cmp_abs_spec by auto. rewrite !ofZ_val. reflexivity. Qed.
Lemma is_zero_ofZ x : is_zero (ofZ x) = (x =? 0).
Proof. rewrite is_zero_val by auto. rewrite ofZ_val. lia. Qed.
Lemma mul_ofZ rs x y : mul rs (ofZ x) (ofZ y) = Ok (ofZ (x * y)).
Proof.
  destruct (mul_spec rs (ofZ x) (ofZ y)) as (r & E & C & V); auto. rewrite !mval_ofZ in V.
  rewrite E. f_equal. apply is_ofZ; auto.
Qed.
Lemma shl_ofZ x n : 0 <= n -> shl (ofZ x) n = ofZ (x * 2 ^ n).
Proof.
  intro Hn. destruct (shl_mval (ofZ x) n) as [W V]; auto. rewrite mval_ofZ in V. apply is_ofZ; auto.
  split; auto. destruct (shl_spec (ofZ x) n) as (_ & N & V'); auto. intro Z0. rewrite N, ofZ_neg.
  rewrite Z0 in V'. cbn [val] in V'. rewrite ofZ_val in V'. pose proof (pow2_pos n Hn).
  destruct (Z.ltb_spec x 0); auto. nia.
Qed.
Lemma shr_ofZ x n : 0 <= n -> 0 <= x -> shr (ofZ x) n = ofZ (x / 2 ^ n).
Proof.
  intros Hn Hx. destruct (shr_spec (ofZ x) n) as (W & V & N); auto. pose proof (pow2_pos n Hn).
  assert (N' : neg (shr (ofZ x) n) = false).
  { destruct N as [N|[_ N]]; [rewrite N, ofZ_neg; lia|exact N]. }
  apply is_ofZ; [apply wf_canon; auto|]. unfold mval. rewrite N', V, ofZ_val. f_equal. lia.
Qed.
Lemma abs_ofZ x : mpi_abs (ofZ x) = ofZ (Z.abs x).
Proof.
  apply is_ofZ; [apply wf_canon; auto; apply (canon_wf _ (canon_ofZ x))|].
  unfold mpi_abs, mval. cbn [neg dg]. apply ofZ_val.
Qed.
Lemma is_odd_ofZ x : is_odd (ofZ x) = Z.odd x.
Proof.
  pose proof (ofZ_val x) as V. unfold is_odd. destruct (dg (ofZ x)) as [|d l]; cbn [val] in V.
  - assert (x = 0) by lia. subst. reflexivity.
  - assert (OA : Z.odd x = Z.odd (Z.abs x)) by (destruct x; reflexivity). rewrite OA, <- V, Z.odd_add, Z.odd_mul. change (Z.odd B) with false. cbn [andb]. rewrite xorb_false_r. reflexivity.
Qed.
