(** Proofs about the code of other build options, see MpiConfModel. *)
From Verif Require Import Base MpiModel MpiMulModel MpiDivModel MpiAlgModel MpiIOModel MpiSpec MpiDigits MpiArith MpiCanon MpiDiv MpiMul MpiMul2 MpiSqr MpiAlg MpiIO MpiAlg2 MpiConfModel.
From Coq Require Import Znumtheory.

(** * Division by shift and subtract *)
Lemma ds_loop_ok n : forall b x y, 0 < b -> 0 <= x < b * 2 ^ (Z.of_nat n + 1) ->
  ds_loop n (ofZ x) (ofZ (b * 2 ^ Z.of_nat n)) (ofZ (2 ^ Z.of_nat n)) (ofZ y) = Ok (ofZ (y + x / b), ofZ (x mod b)).
Proof.
  induction n as [|n IH]; intros b x y Hb Hx.
  - cbn [ds_loop]. rewrite cmp_ofZ. change (Z.of_nat 0) with 0 in *. change (2 ^ 0) with 1. change (2 ^ (0 + 1)) with 2 in Hx. rewrite Z.mul_1_r.
    destruct (Z.leb_spec (Z.sgn (b - x)) 0).
    + rewrite sub_ofZ. cbn [bind]. rewrite add_ofZ. cbn [bind].
      rewrite <- (Z.div_unique_pos x b 1 (x - b)) by lia. rewrite <- (Z.mod_unique_pos x b 1 (x - b)) by lia. reflexivity.
    + cbn [bind]. rewrite Z.div_small, Z.mod_small by lia. rewrite Z.add_0_r. reflexivity.
  - cbn [ds_loop]. rewrite cmp_ofZ. set (N := Z.of_nat n) in *. replace (Z.of_nat (S n)) with (N + 1) in * by lia.
    assert (HN : 0 <= N) by lia. assert (P : 0 < 2 ^ N) by (apply Z.pow_pos_nonneg; lia).
    replace (2 ^ (N + 1 + 1)) with (2 * 2 ^ (N + 1)) in Hx by (rewrite (Z.pow_add_r 2 (N + 1) 1) by lia; lia).
    assert (E : 2 ^ (N + 1) = 2 * 2 ^ N) by (rewrite Z.pow_add_r by lia; lia).
    assert (S1 : shr (ofZ (b * 2 ^ (N + 1))) 1 = ofZ (b * 2 ^ N)).
    { rewrite shr_ofZ by nia. f_equal. rewrite E. replace (b * (2 * 2 ^ N)) with (b * 2 ^ N * 2 ^ 1) by lia. apply Z.div_mul. lia. }
    assert (S2 : shr (ofZ (2 ^ (N + 1))) 1 = ofZ (2 ^ N)).
    { rewrite shr_ofZ by nia. f_equal. rewrite E. replace (2 * 2 ^ N) with (2 ^ N * 2 ^ 1) by lia. apply Z.div_mul. lia. }
    destruct (Z.leb_spec (Z.sgn (b * 2 ^ (N + 1) - x)) 0).
    + rewrite sub_ofZ. cbn [bind]. rewrite add_ofZ. cbn [bind]. cbv zeta. rewrite S1, S2. rewrite IH by (rewrite ?E in *; nia). f_equal. f_equal.
      * f_equal. replace (x - b * 2 ^ (N + 1)) with (x + (- 2 ^ (N + 1)) * b) by lia. rewrite Z.div_add by lia. lia.
      * f_equal. replace (x - b * 2 ^ (N + 1)) with (x + (- 2 ^ (N + 1)) * b) by lia. rewrite Z.mod_add by lia. reflexivity.
    + cbn [bind]. cbv zeta. rewrite S1, S2. apply IH; lia.
Qed.

Lemma wf_abs a : wf a -> mpi_abs a = ofZ (val (dg a)).
Proof. intro W. apply is_ofZ; [apply wf_canon; auto|]. reflexivity. Qed.

Theorem div_abs_small_eq a b : wf a -> wf b -> div_abs_small a b = div_abs a b.
Proof.
  intros Wa Wb. unfold div_abs_small. rewrite is_zero_val by auto. destruct (Z.eqb_spec (val (dg b)) 0) as [E|NZ].
  { unfold div_abs. rewrite is_zero_val, E by auto. reflexivity. }
  destruct (div_abs_ok a b Wa Wb NZ) as (q & r & E & Wq & Wr & Vq & Vr & Nq & Nr).
  destruct (cmp_abs a b <? 0) eqn:C.
  { unfold div_abs. rewrite is_zero_val, C by auto. destruct (Z.eqb_spec (val (dg b)) 0); [contradiction|reflexivity]. }
  rewrite E. clear E. rewrite cmp_abs_spec in C by auto.
  pose proof (val_nonneg _ (proj1 Wa)) as Pa. pose proof (val_nonneg _ (proj1 Wb)) as Pb.
  set (va := val (dg a)) in *. set (vb := val (dg b)) in *.
  assert (L : vb <= va) by (destruct (Z.ltb_spec (Z.sgn (va - vb)) 0); [discriminate|lia]).
  rewrite set_int_ofZ by lia. cbn [bind]. rewrite !count_bits_mval by auto.
  assert (Ma : Z.abs (mval a) = va) by (unfold mval; fold va; destruct (neg a); lia). assert (Mb : Z.abs (mval b) = vb) by (unfold mval; fold vb; destruct (neg b); lia).
  destruct (Z.eqb_spec (mval a) 0); [lia|]. destruct (Z.eqb_spec (mval b) 0); [lia|]. rewrite Ma, Mb. cbv zeta.
  pose proof (Z.log2_spec va ltac:(lia)) as La. pose proof (Z.log2_spec vb ltac:(lia)) as Lb. pose proof (Z.log2_le_mono vb va L) as LL.
  pose proof (Z.log2_nonneg vb) as L0.
  set (la := Z.log2 va) in *. set (lb := Z.log2 vb) in *. replace (la + 1 - (lb + 1)) with (la - lb) by lia.
  rewrite !wf_abs by auto. fold va vb. rewrite !shl_ofZ by lia. rewrite Z.mul_1_l.
  change mzero with (ofZ 0). replace (la - lb) with (Z.of_nat (Z.to_nat (la - lb))) at 2 3 by lia. rewrite ds_loop_ok; [|lia|].
  2:{ split; [lia|]. rewrite Z2Nat.id by lia. replace (Z.succ la) with (lb + (la - lb + 1)) in La by lia. rewrite Z.pow_add_r in La by lia.
      assert (0 < 2 ^ (la - lb + 1)) by (apply Z.pow_pos_nonneg; lia). nia. }
  cbn [bind]. f_equal. f_equal.
  - apply canon_eq; [apply wf_canon; auto; apply (canon_wf _ (canon_ofZ _))|apply wf_canon; auto|].
    unfold set_sign, mval. cbn [neg dg]. rewrite Nq, Vq, ofZ_val. cbn [Z.add]. apply Z.abs_eq. apply Z.div_pos; lia.
  - apply canon_eq; [apply wf_canon; auto; apply (canon_wf _ (canon_ofZ _))|apply wf_canon; auto|].
    unfold set_sign, mval. cbn [neg dg]. rewrite Nr, Vr, ofZ_val. apply Z.abs_eq. apply Z.mod_pos_bound. lia.
Qed.

(** * The binary inverse *)
Lemma is_odd_wf a : wf a -> is_odd a = Z.odd (mval a).
Proof.
  intros _. unfold is_odd, mval. destruct (dg a) as [|d l]; [destruct (neg a); reflexivity|]. cbn [val].
  assert (E : Z.odd (d + B * val l) = Z.odd d) by (rewrite Z.odd_add, Z.odd_mul; change (Z.odd B) with false; cbn [andb]; apply xorb_false_r).
  destruct (neg a); rewrite ?Z.odd_opp, E; reflexivity.
Qed.
Lemma quot2 x : 2 * Z.abs (Z.quot x 2) <= Z.abs x.
Proof. rewrite <- Z.quot_abs by lia. change (Z.abs 2) with 2. rewrite Z.quot_div_nonneg by lia. pose proof (Z.mul_div_le (Z.abs x) 2 ltac:(lia)). lia. Qed.
Lemma quot2_even x : Z.odd x = false -> 2 * Z.quot x 2 = x.
Proof.
  intro O. rewrite <- Z.negb_even in O. apply Bool.negb_false_iff, Z.even_spec in O. destruct O as [y ->].
  rewrite (Z.mul_comm 2 y), Z.quot_mul by lia. lia.
Qed.
Lemma odd_false_ex x : Z.odd x = false -> exists y, x = 2 * y.
Proof. intro O. rewrite <- Z.negb_even in O. apply Bool.negb_false_iff, Z.even_spec in O. exact O. Qed.

(** what one halving does to the two coefficients *)
Lemma halve_step A M u1 u2 : wf u1 -> wf u2 -> 0 <= M ->
  exists w1 w2,
  (do ' (u1, u2) <- (if is_odd u1 || is_odd u2 then do u1 <- add u1 (ofZ M); do u2 <- sub u2 (ofZ A); Ok (u1, u2) else Ok (u1, u2)); Ok (shr u1 1, shr u2 1)) = Ok (w1, w2) /\
  wf w1 /\ wf w2 /\ 2 * Z.abs (mval w1) <= Z.abs (mval u1) + M /\
  (Z.odd A || Z.odd M = true -> Z.odd (A * mval u1 + M * mval u2) = false -> 2 * (A * mval w1 + M * mval w2) = A * mval u1 + M * mval u2).
Proof.
  intros W1 W2 HM. rewrite !is_odd_wf by auto. destruct (Z.odd (mval u1) || Z.odd (mval u2)) eqn:O.
  - destruct (add_spec u1 (ofZ M)) as (a1 & E1 & Wa & V1 & _); auto. destruct (sub_spec u2 (ofZ A)) as (a2 & E2 & Wb & V2 & _); auto.
    rewrite mval_ofZ in V1, V2. rewrite E1. cbn [bind]. rewrite E2. cbn [bind].
    destruct (shr_mval a1 1 Wa ltac:(lia)) as [X1 Y1]. destruct (shr_mval a2 1 Wb ltac:(lia)) as [X2 Y2]. change (2 ^ 1) with 2 in *.
    exists (shr a1 1), (shr a2 1). split; [reflexivity|]. split; auto. split; auto. split; [rewrite Y1; pose proof (quot2 (mval a1)); lia|].
    intros OAM OT. rewrite Y1, Y2.
    assert (OO : Z.odd (mval a1) = false /\ Z.odd (mval a2) = false).
    { rewrite V1, V2, Z.odd_add, Z.odd_sub. rewrite Z.odd_add, !Z.odd_mul in OT.
      destruct (Z.odd A), (Z.odd M), (Z.odd (mval u1)), (Z.odd (mval u2)); cbn in *; auto; discriminate. }
    destruct OO as [O1 O2]. apply quot2_even in O1, O2. nia.
  - apply Bool.orb_false_iff in O. destruct O as [O1 O2]. cbn [bind].
    destruct (shr_mval u1 1 W1 ltac:(lia)) as [X1 Y1]. destruct (shr_mval u2 1 W2 ltac:(lia)) as [X2 Y2]. change (2 ^ 1) with 2 in *.
    exists (shr u1 1), (shr u2 1). split; [reflexivity|]. split; auto. split; auto. split; [rewrite Y1; pose proof (quot2 (mval u1)); lia|].
    intros _ _. rewrite Y1, Y2. apply quot2_even in O1, O2. nia.
Qed.

Lemma halve_ok A M : 0 <= M -> forall n t u1 u2 L, 0 < t -> Z.log2 t <= Z.of_nat n -> wf u1 -> wf u2 -> 2 * Z.abs (mval u1) <= L -> 2 * M <= L ->
  exists t' w1 w2, halve n (ofZ A) (ofZ M) (ofZ t) u1 u2 = Ok (ofZ t', w1, w2) /\ wf w1 /\ wf w2 /\
  0 < t' <= t /\ Z.odd t' = true /\ (t' | t) /\ (Z.odd t = false -> 2 * t' <= t) /\
  2 * Z.abs (mval w1) <= L /\ (Z.odd t = false -> 4 * Z.abs (mval w1) <= L + 2 * M) /\
  (Z.odd A || Z.odd M = true -> A * mval u1 + M * mval u2 = t -> A * mval w1 + M * mval w2 = t').
Proof.
  intro HM. induction n as [|n IH]; intros t u1 u2 L Ht HL W1 W2 B1 B2; cbn [halve]; rewrite is_odd_ofZ.
  - assert (t = 1) by (destruct (Z.eq_dec t 1); auto; pose proof (Z.log2_pos t ltac:(lia)); lia). subst t. cbn [Z.odd].
    exists 1, u1, u2. split; [reflexivity|]. split; auto. split; auto. split; [lia|]. split; [reflexivity|]. split; [apply Z.divide_refl|]. split; [discriminate|]. split; [lia|]. split; [discriminate|auto].
  - destruct (Z.odd t) eqn:O.
    + exists t, u1, u2. split; [reflexivity|]. split; auto. split; auto. split; [lia|]. split; auto. split; [apply Z.divide_refl|]. split; [discriminate|]. split; [lia|]. split; [discriminate|auto].
    + destruct (odd_false_ex t O) as [h Eh]. assert (Hh : 0 < h) by lia.
      rewrite shr_ofZ by lia. replace (t / 2 ^ 1) with h by (change (2 ^ 1) with 2; rewrite Eh, Z.mul_comm, Z.div_mul; lia).
      destruct (halve_step A M u1 u2 W1 W2 HM) as (w1 & w2 & E & X1 & X2 & Bw & EQ).
      assert (LH : Z.log2 h <= Z.of_nat n). { rewrite Eh, Z.log2_double in HL by lia. lia. }
      assert (D : 2 * Z.abs (mval w1) <= (L + 2 * M) / 2) by (apply Z.div_le_lower_bound; lia).
      assert (D' : 2 * M <= (L + 2 * M) / 2) by (apply Z.div_le_lower_bound; lia).
      destruct (IH h w1 w2 ((L + 2 * M) / 2) Hh LH X1 X2 D D') as (t' & y1 & y2 & E' & Y1 & Y2 & T1 & T2 & T3 & T4 & T5 & T6 & T7).
      exists t', y1, y2. split.
      { destruct (if is_odd u1 || is_odd u2 then do u0 <- add u1 (ofZ M); do u3 <- sub u2 (ofZ A); Ok (u0, u3) else Ok (u1, u2)) as [[z1 z2]| | |]; cbn [bind] in E |- *; try discriminate E.
        injection E as -> ->. exact E'. }
      pose proof (Z.mul_div_le (L + 2 * M) 2 ltac:(lia)).
      split; auto. split; auto. split; [lia|]. split; auto. split; [rewrite Eh; apply Z.divide_mul_r; auto|]. split; [lia|]. split; [lia|]. split; [lia|].
      intros OAM ET. apply T7; auto. assert (OO : Z.odd (A * mval u1 + M * mval u2) = false) by (rewrite ET; auto). specialize (EQ OAM OO). lia.
Qed.

Lemma halve_bound A M n t u1 u2 D : 0 <= M -> 0 < t -> Z.log2 t <= Z.of_nat n -> wf u1 -> wf u2 -> 2 * M <= D ->
  2 * Z.abs (mval u1) <= D \/ Z.odd t = false /\ 2 * Z.abs (mval u1) <= 2 * D - 2 * M ->
  exists t' w1 w2, halve n (ofZ A) (ofZ M) (ofZ t) u1 u2 = Ok (ofZ t', w1, w2) /\ wf w1 /\ wf w2 /\
  0 < t' <= t /\ Z.odd t' = true /\ (t' | t) /\ Z.log2 t' + (if Z.odd t then 0 else 1) <= Z.log2 t /\ 2 * Z.abs (mval w1) <= D /\
  (Z.odd A || Z.odd M = true -> A * mval u1 + M * mval u2 = t -> A * mval w1 + M * mval w2 = t').
Proof.
  intros HM Ht HL W1 W2 HD HB.
  assert (LG : forall t', 0 < t' <= t -> (Z.odd t = false -> 2 * t' <= t) -> Z.log2 t' + (if Z.odd t then 0 else 1) <= Z.log2 t).
  { intros t' R H. destruct (Z.odd t); [pose proof (Z.log2_le_mono t' t); lia|]. specialize (H eq_refl). pose proof (Z.log2_le_mono (2 * t') t H). rewrite Z.log2_double in * by lia. lia. }
  destruct HB as [HB|[O HB]].
  - destruct (halve_ok A M HM n t u1 u2 D Ht HL W1 W2 HB HD) as (t' & w1 & w2 & E & X1 & X2 & R & O' & DV & H2 & B1 & B2 & EQ).
    exists t', w1, w2. repeat (split; [assumption || (apply LG; assumption)|]). exact EQ.
  - destruct (halve_ok A M HM n t u1 u2 (2 * D - 2 * M) Ht HL W1 W2 HB ltac:(lia)) as (t' & w1 & w2 & E & X1 & X2 & R & O' & DV & H2 & B1 & B2 & EQ).
    specialize (B2 O). exists t', w1, w2. repeat (split; [assumption || (apply LG; assumption) || lia|]). exact EQ.
Qed.

Lemma odd_sub_even x y : Z.odd x = true -> Z.odd y = true -> Z.odd (x - y) = false.
Proof. intros H H'. rewrite Z.odd_sub, H, H'. reflexivity. Qed.
Lemma gcd_div_l x y t : (x | t) -> Z.gcd t y = 1 -> Z.gcd x y = 1.
Proof.
  intros H G. apply Z.divide_1_r_nonneg; [apply Z.gcd_nonneg|]. rewrite <- G. apply Z.gcd_greatest; [|apply Z.gcd_divide_r].
  eapply Z.divide_trans; [apply Z.gcd_divide_l|exact H].
Qed.
Lemma bound_step M D x m m' : 0 <= M -> m' + 1 <= m -> 2 * x <= D + M + M * (m' + 1) -> 2 * x <= D + M * (m + 1).
Proof. intros HM H H'. pose proof (Z.mul_le_mono_nonneg_l (m' + 1) m M HM H). lia. Qed.
Lemma bin_loop_ok A M n : 0 <= M -> forall f t u1 u2 s v1 v2 D, 0 < t -> 0 < s -> Z.log2 t <= Z.of_nat n -> Z.log2 s <= Z.of_nat n ->
  wf u1 -> wf u2 -> wf v1 -> wf v2 -> 2 * M <= D ->
  2 * Z.abs (mval u1) <= D \/ Z.odd t = false /\ 2 * Z.abs (mval u1) <= 2 * D - 2 * M ->
  2 * Z.abs (mval v1) <= D \/ Z.odd s = false /\ 2 * Z.abs (mval v1) <= 2 * D - 2 * M ->
  Z.log2 t + Z.log2 s + (if Z.odd t && Z.odd s then 1 else 0) < Z.of_nat f ->
  exists r, bin_loop f n (ofZ A) (ofZ M) (ofZ t) u1 u2 (ofZ s) v1 v2 = Ok r /\ wf r /\
  2 * Z.abs (mval r) <= D + M * (Z.log2 t + Z.log2 s + (if Z.odd t && Z.odd s then 1 else 0) + 1) /\
  (Z.odd A || Z.odd M = true -> A * mval u1 + M * mval u2 = t -> A * mval v1 + M * mval v2 = s -> Z.gcd t s = 1 -> exists c, A * mval r + M * c = 1).
Proof.
  intro HM. induction f as [|f IH]; intros t u1 u2 s v1 v2 D Ht Hs Lt Ls Wu1 Wu2 Wv1 Wv2 HD Bu Bv HF.
  { exfalso. pose proof (Z.log2_nonneg t). pose proof (Z.log2_nonneg s). destruct (Z.odd t && Z.odd s); lia. }
  cbn [bin_loop].
  destruct (halve_bound A M n t u1 u2 D HM Ht Lt Wu1 Wu2 HD Bu) as (t' & x1 & x2 & E1 & X1 & X2 & R1 & O1 & D1 & G1 & B1 & Q1).
  destruct (halve_bound A M n s v1 v2 D HM Hs Ls Wv1 Wv2 HD Bv) as (s' & y1 & y2 & E2 & Y1 & Y2 & R2 & O2 & D2 & G2 & B2 & Q2).
  rewrite E1. cbn [bind]. rewrite E2. cbn [bind]. rewrite cmp_ofZ.
  assert (GG : Z.gcd t s = 1 -> Z.gcd t' s' = 1).
  { intro G. apply (gcd_div_l t' s' t D1). rewrite Z.gcd_comm. apply (gcd_div_l s' t s D2). rewrite Z.gcd_comm. exact G. }
  assert (Hm : Z.log2 t' + Z.log2 s' + 1 < Z.of_nat (S f)) by (destruct (Z.odd t), (Z.odd s); cbn [andb] in HF; lia).
  pose proof (Z.log2_nonneg t'). pose proof (Z.log2_nonneg s').
  destruct (sub_spec x1 y1 X1 Y1) as (d1 & S1 & Wd1 & Vd1 & _). destruct (sub_spec x2 y2 X2 Y2) as (d2 & S2 & Wd2 & Vd2 & _).
  destruct (sub_spec y1 x1 Y1 X1) as (e1 & T1 & We1 & Ve1 & _). destruct (sub_spec y2 x2 Y2 X2) as (e2 & T2 & We2 & Ve2 & _).
  assert (LT : Z.log2 t' <= Z.log2 t) by (destruct (Z.odd t); lia). assert (LS : Z.log2 s' <= Z.log2 s) by (destruct (Z.odd s); lia).
  destruct (Z.leb_spec 0 (Z.sgn (t' - s'))) as [C|C].
  - rewrite sub_ofZ. cbn [bind]. rewrite S1. cbn [bind]. rewrite S2. cbn [bind]. rewrite is_zero_ofZ. destruct (Z.eqb_spec (t' - s') 0) as [Z0|NZ].
    + exists y1. split; auto. split; auto. split; [pose proof (Z.mul_nonneg_nonneg M (Z.log2 t + Z.log2 s + (if Z.odd t && Z.odd s then 1 else 0) + 1) HM ltac:(destruct (Z.odd t && Z.odd s); lia)); lia|]. intros OAM Eu Ev G. specialize (GG G). assert (t' = s') by lia. subst t'. rewrite Z.gcd_diag in GG.
      exists (mval y2). rewrite Q2 by auto. lia.
    + assert (P : 0 < t' - s') by lia. pose proof (Z.log2_le_mono (t' - s') t' ltac:(lia)) as LM.
      pose proof (odd_sub_even t' s' O1 O2) as OE.
      destruct (IH (t' - s') d1 d2 s' y1 y2 (D + M) P ltac:(lia) ltac:(lia) ltac:(lia) Wd1 Wd2 Y1 Y2 ltac:(lia)) as (r & Er & Wr & Br & Qr).
      * right. split; auto. lia.
      * left. lia.
      * rewrite OE. cbn [andb]. lia.
      * exists r. split; auto. split; auto. split.
        { rewrite OE in Br. cbn [andb] in Br. apply (bound_step M D _ _ (Z.log2 (t' - s') + Z.log2 s' + 0)); auto. clear - G1 G2 LM. destruct (Z.odd t), (Z.odd s); cbn [andb]; lia. }
        intros OAM Eu Ev G. apply Qr; auto; [rewrite Vd1, Vd2, <- (Q1 OAM Eu), <- (Q2 OAM Ev); lia|].
        rewrite Z.gcd_comm, Z.gcd_sub_diag_r, Z.gcd_comm. apply GG; auto.
  - rewrite sub_ofZ. cbn [bind]. rewrite T1. cbn [bind]. rewrite T2. cbn [bind]. rewrite is_zero_ofZ. destruct (Z.eqb_spec t' 0) as [Z0|NZ]; [lia|].
    assert (P : 0 < s' - t') by lia. pose proof (Z.log2_le_mono (s' - t') s' ltac:(lia)) as LM.
    pose proof (odd_sub_even s' t' O2 O1) as OE.
    destruct (IH t' x1 x2 (s' - t') e1 e2 (D + M) ltac:(lia) P ltac:(lia) ltac:(lia) X1 X2 We1 We2 ltac:(lia)) as (r & Er & Wr & Br & Qr).
    * left. lia.
    * right. split; auto. lia.
    * rewrite OE, Bool.andb_false_r. lia.
    * exists r. split; auto. split; auto. split.
      { rewrite OE, Bool.andb_false_r in Br. apply (bound_step M D _ _ (Z.log2 t' + Z.log2 (s' - t') + 0)); auto. clear - G1 G2 LM. destruct (Z.odd t), (Z.odd s); cbn [andb]; lia. }
      intros OAM Eu Ev G. apply Qr; auto; [rewrite Ve1, Ve2, <- (Q1 OAM Eu), <- (Q2 OAM Ev); lia|].
      rewrite Z.gcd_sub_diag_r. apply GG; auto.
Qed.

Lemma below_zero v : wf v -> negb (is_zero v) && neg v = (mval v <? 0).
Proof.
  intro W. rewrite is_zero_val by auto. pose proof (val_nonneg _ (proj1 W)). unfold mval.
  destruct (neg v), (Z.eqb_spec (val (dg v)) 0); cbn [negb andb]; symmetry; first [apply Z.ltb_lt; lia|apply Z.ltb_ge; lia].
Qed.
Lemma cmp_pos v M : wf v -> 0 < M -> (0 <=? cmp v (ofZ M)) = (M <=? mval v).
Proof.
  intros W HM. pose proof (val_nonneg _ (proj1 W)) as P. assert (C : canon v \/ mval v = 0 /\ neg v = true).
  { destruct (neg v) eqn:N; [|left; apply wf_canon; auto]. destruct (Z.eq_dec (val (dg v)) 0) as [E|NE].
    - right. unfold mval. rewrite N, E. auto.
    - left. split; auto. intro E. rewrite E in NE. cbn in NE. lia. }
  destruct C as [C|[V N]].
  - rewrite cmp_spec by auto. rewrite mval_ofZ. destruct (Z.leb_spec 0 (Z.sgn (mval v - M))), (Z.leb_spec M (mval v)); lia.
  - rewrite V. assert (NM : neg (ofZ M) = false) by (rewrite ofZ_neg; apply Z.ltb_ge; lia). unfold cmp. rewrite N, NM. cbn. symmetry. apply Z.leb_gt. lia.
Qed.
Lemma norm_up_ok M : 0 < M -> forall k v, wf v -> - mval v <= M * Z.of_nat k ->
  exists r c, norm_up k v (ofZ M) = Ok r /\ wf r /\ mval r = mval v + M * c /\ 0 <= mval r /\ (mval r = mval v \/ mval r < M).
Proof.
  intro HM. induction k as [|k IH]; intros v W HK; cbn [norm_up]; rewrite below_zero by auto; destruct (Z.ltb_spec (mval v) 0).
  - lia.
  - exists v, 0. repeat split; auto; try lia; apply W.
  - destruct (add_spec v (ofZ M)) as (w & E & Ww & V & _); auto. rewrite mval_ofZ in V. rewrite E. cbn [bind].
    destruct (IH w Ww ltac:(lia)) as (r & c & E' & Wr & Vr & P & H'). exists r, (c + 1). split; auto. split; auto. split; [lia|]. split; [lia|]. lia.
  - exists v, 0. repeat split; auto; try lia; apply W.
Qed.
Lemma norm_down_ok M : 0 < M -> forall k v, wf v -> 0 <= mval v < M * (Z.of_nat k + 1) ->
  exists r c, norm_down k v (ofZ M) = Ok r /\ wf r /\ mval r = mval v + M * c /\ 0 <= mval r < M.
Proof.
  intro HM. induction k as [|k IH]; intros v W HK; cbn [norm_down]; rewrite cmp_pos by auto; destruct (Z.leb_spec M (mval v)).
  - lia.
  - exists v, 0. repeat split; auto; try lia; apply W.
  - destruct (sub_spec v (ofZ M)) as (w & E & Ww & V & _); auto. rewrite mval_ofZ in V. rewrite E. cbn [bind].
    destruct (IH w Ww ltac:(lia)) as (r & c & E' & Wr & Vr & P). exists r, (c - 1). split; auto. split; auto. split; [lia|]. lia.
  - exists v, 0. repeat split; auto; try lia; apply W.
Qed.

(** for every operand that is not a multiple of the modulus the routine ends and reports success *)
Lemma inv_bin_ends fuel x M : 0 < M -> x mod M <> 0 -> 2 * Z.log2 M + 4 <= Z.of_nat fuel ->
  exists r, inv_bin fuel (ofZ x) (ofZ M) = Ok r /\ wf r /\ 0 <= mval r < M /\ (Z.gcd x M = 1 -> exists c, (x mod M) * mval r + M * c = 1).
Proof.
  intros HM NZ HF. unfold inv_bin. rewrite mod_ofZ by auto. cbn [bind]. rewrite !set_int_ofZ by lia. cbn [bind].
  pose proof (Z.mod_pos_bound x M HM) as HA. set (A := x mod M) in *. assert (M1 : 1 < M) by lia.
  pose proof (Z.log2_le_mono A M ltac:(lia)) as LA. pose proof (Z.log2_nonneg A). pose proof (Z.log2_nonneg M).
  destruct (bin_loop_ok A M fuel ltac:(lia) fuel A (ofZ 1) (ofZ 0) M (ofZ 0) (ofZ 1) (2 * M) ltac:(lia) HM ltac:(lia) ltac:(lia)) as (r & E & W & Bd & Q);
    auto; rewrite ?mval_ofZ; try lia.
  { destruct (Z.odd A && Z.odd M); lia. }
  rewrite E. cbn [bind].
  assert (Bd' : Z.abs (mval r) <= M * (Z.log2 M + 2)).
  { rewrite ?mval_ofZ in *. assert (Z.log2 A + Z.log2 M + (if Z.odd A && Z.odd M then 1 else 0) + 1 <= 2 * Z.log2 M + 2) by (destruct (Z.odd A && Z.odd M); lia). nia. }
  destruct (norm_up_ok M HM fuel r W) as (r1 & c1 & E1 & W1 & V1 & P1 & Q1); [nia|]. rewrite E1. cbn [bind].
  destruct (norm_down_ok M HM fuel r1 W1) as (r2 & c2 & E2 & W2 & V2 & P2); [nia|].
  exists r2. split; auto. split; auto. split; auto. intro G.
  assert (GA : Z.gcd A M = 1) by (unfold A; rewrite Z.gcd_mod by lia; rewrite Z.gcd_comm; auto).
  assert (OAM : Z.odd A || Z.odd M = true).
  { destruct (Z.odd A) eqn:OA; auto. destruct (Z.odd M) eqn:OM; auto. exfalso. destruct (odd_false_ex A OA) as [a1 Ea]. destruct (odd_false_ex M OM) as [m1 Em].
    assert (D : (2 | Z.gcd A M)) by (apply Z.gcd_greatest; [exists a1|exists m1]; lia). rewrite GA in D. destruct D. lia. }
  destruct Q as [c Ec]; auto; try (rewrite !mval_ofZ; lia). exists (c - A * c1 - A * c2). rewrite V2, V1. nia.
Qed.

Theorem inv_bin_eq fuel x m : canon x -> canon m -> 1 < mval m -> Z.gcd (mval x) (mval m) = 1 -> 2 * Z.log2 (mval m) + 4 <= Z.of_nat fuel ->
  inv_bin fuel x m = inv x m.
Proof.
  intros Cx Cm HM G HF. destruct (inv_exact x m Cx Cm ltac:(lia) G) as (r & E & Cr & R & V). rewrite E.
  rewrite (canon_is_ofZ x Cx), (canon_is_ofZ m Cm). set (X := mval x) in *. set (M := mval m) in *.
  assert (NZ : X mod M <> 0). { intro Z0. apply Z.mod_divide in Z0; [|lia]. pose proof (Z.gcd_greatest X M M Z0 (Z.divide_refl M)) as D. rewrite G in D. apply Z.divide_1_r_nonneg in D; lia. }
  destruct (inv_bin_ends fuel X M ltac:(lia) NZ HF) as (s & E' & Ws & Rs & Q). rewrite E'. f_equal. destruct (Q G) as [c Ec].
  apply canon_eq; auto.
  - split; auto. intro E0. assert (S0 : mval s = 0) by (unfold mval; rewrite E0; cbn; destruct (neg s); reflexivity). rewrite S0 in Ec. exfalso.
    assert (M * c = 1) by lia. apply Z.eq_mul_1 in H. lia.
  - assert (H1 : (X * mval s) mod M = 1 mod M).
    { rewrite <- Z.mul_mod_idemp_l by lia. replace (X mod M * mval s) with (1 + - c * M) by lia. apply Z.mod_add. lia. }
    assert (H2 : (M | X * (mval s - mval r))).
    { apply Z.mod_divide; [lia|]. rewrite Z.mul_sub_distr_l, Zminus_mod, H1, V, Z.sub_diag. reflexivity. }
    apply Z.gauss in H2; [|rewrite Z.gcd_comm; exact G]. destruct H2 as [k Hk]. assert (k = 0) by (clear - Hk Rs R; destruct (Z.lt_trichotomy k 0) as [L|[L|L]]; [exfalso|exact L|exfalso]; nia). subst k. lia.
Qed.

(** a multiple of the modulus: the first inner loop halves zero for ever *)
Lemma halve_zero A M : forall n u1 u2, wf u1 -> wf u2 -> 0 <= M -> halve n (ofZ A) (ofZ M) mzero u1 u2 = Fuel.
Proof.
  induction n as [|n IH]; intros u1 u2 W1 W2 HM; [reflexivity|]. cbn [halve]. change (is_odd mzero) with false. cbv iota.
  destruct (halve_step A M u1 u2 W1 W2 HM) as (w1 & w2 & E & X1 & X2 & _ & _).
  destruct (if is_odd u1 || is_odd u2 then do u0 <- add u1 (ofZ M); do u3 <- sub u2 (ofZ A); Ok (u0, u3) else Ok (u1, u2)) as [[z1 z2]| | |]; cbn [bind] in E |- *; try discriminate E.
  injection E as -> ->. change (shr mzero 1) with mzero. apply IH; auto.
Qed.
Theorem inv_bin_loops fuel x m : canon x -> canon m -> 0 < mval m -> (mval m | mval x) -> inv_bin fuel x m = Fuel.
Proof.
  intros Cx Cm HM D. rewrite (canon_is_ofZ x Cx), (canon_is_ofZ m Cm). set (X := mval x) in *. set (M := mval m) in *.
  unfold inv_bin. rewrite mod_ofZ by auto. apply Z.mod_divide in D; [|lia]. rewrite D. cbn [bind]. rewrite !set_int_ofZ by lia. cbn [bind].
  destruct fuel as [|f]; [reflexivity|]. cbn [bin_loop].
  pose proof (halve_zero 0 M (S f) (ofZ 1) (ofZ 0) (canon_wf _ (canon_ofZ 1)) (canon_wf _ (canon_ofZ 0)) ltac:(lia)) as H.
  change (ofZ 0) with mzero in *. rewrite H. reflexivity.
Qed.
Theorem inv_bin_unchecked fuel x m : canon x -> canon m -> 0 < mval m -> ~ (mval m | mval x) -> Z.gcd (mval x) (mval m) <> 1 -> 2 * Z.log2 (mval m) + 4 <= Z.of_nat fuel ->
  inv x m = Err (-1) /\ exists r, inv_bin fuel x m = Ok r.
Proof.
  intros Cx Cm HM D G HF. split; [apply inv_none; auto|].
  rewrite (canon_is_ofZ x Cx), (canon_is_ofZ m Cm). destruct (inv_bin_ends fuel (mval x) (mval m) HM) as (r & E & _); auto; [|eauto].
  intro Z0. apply D. apply Z.mod_divide; [lia|auto].
Qed.

(** * The multiplication options *)
Lemma mul_abs_c_ok o fuel : forall rs a b, wf a -> wf b ->
  (Nat.min (used a) (used b) < fuel)%nat -> mulabs_spec (mul_abs_c o fuel) rs a b.
Proof.
  induction fuel as [|f IH]; intros rs a b Wa Wb Hf; [lia|].
  unfold mulabs_spec. cbn [mul_abs_c].
  pose proof (Nat.mul_div_le (Nat.min (used a) (used b)) 3 ltac:(lia)) as D3.
  destruct (o_toom3 o && (300 <? Nat.min (used a) (used b)))%nat eqn:T.
  - apply andb_true_iff in T. destruct T as [_ L]. apply Nat.ltb_lt in L.
    destruct (toom3_ok (mul_abs_c o f) a b Wa Wb) as (r & E & W & M & Z0).
    { intros rs' x y Wx Wy Ux Uy. apply IH; auto.
      assert (1 <= Nat.min (used a) (used b) / 3)%nat by (apply Nat.div_le_lower_bound; lia). lia. }
    exists r. repeat split; try apply W; auto.
    + rewrite <- abs_mval, M, Z.abs_mul, !abs_mval by auto. reflexivity.
    + intros _ Na Nb. rewrite M. unfold mval. rewrite Na, Nb. reflexivity.
  - destruct (o_karatsuba o && (64 <? Nat.min (used a) (used b)))%nat eqn:K.
    + apply andb_true_iff in K. destruct K as [_ L']. apply Nat.ltb_lt in L'.
      destruct (karatsuba_ok (mul_abs_c o f) a b Wa Wb) as (r & E & W & V & M & Z0).
      { intros x y Wx Wy Nx Ny Ux Uy. apply IH; auto.
        assert (2 <= Nat.div2 (Nat.min (used a) (used b)))%nat.
        { rewrite Nat.div2_div. apply Nat.div_le_lower_bound; lia. }
        assert (2 * Nat.div2 (Nat.min (used a) (used b)) <= Nat.min (used a) (used b))%nat.
        { rewrite Nat.div2_div. apply Nat.mul_div_le. lia. }
        lia. }
      exists r. repeat split; try apply W; auto.
    + destruct (o_comba o); [apply (mul_comba_spec rs a b Wa Wb)|].
      destruct (mul_baseline_ok a b (proj1 Wa) (proj1 Wb)) as [W V]. exists (mul_baseline a b). split; [reflexivity|]. split; auto. split; auto. split.
      * intros _ _ _. rewrite <- V. unfold mval, mul_baseline. destruct (is_zero a || is_zero b); reflexivity.
      * intro Z0. unfold mul_baseline. rewrite Z0. reflexivity.
Qed.
Theorem mul_c_eq o rs a b : wf a -> wf b -> mul_c o rs a b = mul rs a b.
Proof.
  intros Wa Wb. destruct (mul_gen_ok _ rs a b Wa Wb (mul_abs_c_ok o (S (Nat.min (used a) (used b))) rs a b Wa Wb ltac:(lia))) as (r & E & C & V).
  destruct (mul_spec rs a b Wa Wb) as (r' & E' & C' & V'). unfold mul_c. rewrite E, E'. f_equal. apply canon_eq; auto. congruence.
Qed.

Lemma sqr_karatsuba_ok sq a : wf a -> (64 < used a)%nat ->
  (forall x, wf x -> (used x < used a)%nat -> exists r, sq false x = Ok r /\ wf r /\ mval r = val (dg x) * val (dg x)) ->
  exists r, sqr_karatsuba sq a = Ok r /\ wf r /\ mval r = val (dg a) * val (dg a).
Proof.
  intros Wa L IH.
  unfold sqr_karatsuba.
  assert (is_zero a = false) as ->. { unfold is_zero, used in *. destruct (dg a); [cbn in L; lia|reflexivity]. }
  set (h := Nat.div2 (used a)).
  pose proof (Nat.div2_odd (used a)) as DO. fold h in DO.
  assert (Hh : (2 * h <= used a <= 2 * h + 1)%nat) by (destruct (Nat.odd (used a)); cbn in DO; lia).
  clear DO. clearbody h.
  assert (Va : val (dg a) = val (firstn h (dg a)) + B ^ Z.of_nat h * val (skipn h (dg a))) by (apply val_firstn_skipn; unfold used in *; lia).
  destruct (split_lt h (dg a) (proj1 Wa) ltac:(unfold used in *; lia)) as [La1 La0].
  pose proof (used_adj_firstn h a false) as Ua0.
  assert (Ua1 : used (mkmpi false (skipn h (dg a))) = (used a - h)%nat) by (unfold used; cbn [dg]; apply skipn_length).
  assert (Wx0 : wf (mkmpi false (adjust (firstn h (dg a))))) by (apply wf_adj, digits_firstn, Wa).
  assert (Wx1 : wf (mkmpi false (skipn h (dg a)))) by (apply wf_skipn; auto).
  set (x0 := mkmpi false (adjust (firstn h (dg a)))) in *.
  set (x1 := mkmpi false (skipn h (dg a))) in *.
  assert (Mx0 : val (dg x0) = val (firstn h (dg a))) by (unfold x0; cbn [dg]; apply adjust_val).
  assert (Mx1 : val (dg x1) = val (skipn h (dg a))) by reflexivity.
  destruct (IH x0 Wx0 ltac:(lia)) as (z0 & -> & Wz0 & Mz0). cbn [bind].
  destruct (IH x1 Wx1 ltac:(lia)) as (z2 & -> & Wz2 & Mz2). cbn [bind].
  destruct (add_abs_spec x1 x0 Wx1 Wx0) as (Wsx & Vsx & Nsx).
  replace (add x1 x0) with (Ok (set_sign false (add_abs x1 x0))) by reflexivity.
  cbn [bind]. set (sx := set_sign false (add_abs x1 x0)).
  assert (Wsx' : wf sx) by exact Wsx.
  assert (Usx : (used sx <= used a - h + 1)%nat).
  { apply used_le; auto. unfold sx. cbn [set_sign dg]. rewrite Vsx, Mx0, Mx1.
    unfold used. rewrite Nat2Z.inj_add. apply (add_lt_pow _ _ _ La1 La0). }
  destruct (IH sx Wsx' ltac:(lia)) as (z1 & -> & Wz1 & Mz1). cbn [bind].
  unfold sx in Mz1. cbn [set_sign dg] in Mz1. rewrite Vsx in Mz1.
  clear Wsx Vsx Nsx Usx Wsx' sx.
  destruct (add_spec z0 z2 Wz0 Wz2) as (t & -> & Wt & Mt & _). cbn [bind].
  destruct (sub_spec z1 t Wz1 Wt) as (u & -> & Wu & Mu & _). cbn [bind].
  destruct (shld_mval u h Wu) as (Wu' & Mu').
  destruct (shld_mval z2 (2 * h) Wz2) as (Wz2' & Mz2').
  destruct (add_spec z0 (shld u h) Wz0 Wu') as (v & -> & Wv & Mv & _). cbn [bind].
  destruct (add_spec v (shld z2 (2 * h)) Wv Wz2') as (r & Er & Wr & Mr & _).
  change (h + (h + 0))%nat with (2 * h)%nat. rewrite Er.
  assert (MR : mval r = val (dg a) * val (dg a)).
  { rewrite Mr, Mv, Mz2', Mu', Mu, Mt, Mz1, Mz0, Mz2, Va, !Mx0, !Mx1.
    replace (Z.of_nat (2 * h)) with (Z.of_nat h + Z.of_nat h) by lia. rewrite Z.pow_add_r by lia. ring. }
  assert (VR : val (dg r) = val (dg a) * val (dg a)).
  { rewrite <- abs_mval by auto. rewrite MR. apply Z.abs_eq. apply Z.mul_nonneg_nonneg; apply val_nonneg; apply Wa. }
  exists r. auto.
Qed.
Lemma sqr_cf_ok o fuel : forall a, wf a -> (used a < fuel)%nat ->
  exists r, sqr_cf o fuel false a = Ok r /\ wf r /\ mval r = val (dg a) * val (dg a).
Proof.
  induction fuel as [|f IH]; intros a Wa Hf; [lia|]. cbn [sqr_cf].
  destruct (o_karatsuba o && (64 <? used a))%nat eqn:K.
  - apply andb_true_iff in K. destruct K as [_ L]. apply Nat.ltb_lt in L. apply sqr_karatsuba_ok; auto. intros x Wx Ux. apply IH; auto. lia.
  - destruct (o_comba o).
    + destruct (sqr_comba_ok false a (proj1 Wa)) as (W & V & N). exists (sqr_comba false a). split; auto. split; auto. rewrite <- V. unfold mval. destruct N as [N|N]; rewrite N; reflexivity.
    + destruct (sqr_baseline_ok a Wa) as (r & E & W & V). exists r. split; auto. split; auto. rewrite V. unfold mval. destruct (neg a); ring.
Qed.
Theorem sqr_c_eq o a : wf a -> sqr_c o false a = sqr false a.
Proof.
  intro W. destruct (is_zero a) eqn:Z0.
  { unfold sqr_c, sqr, used. unfold is_zero in Z0. destruct (dg a) eqn:D; [|discriminate]. cbn [length sqr_cf sqr_f]. unfold used. rewrite D. cbn [length Nat.ltb Nat.leb].
    rewrite Bool.andb_false_r. unfold sqr_comba, sqr_baseline, is_zero. rewrite D. destruct (o_comba o); reflexivity. }
  rewrite is_zero_val in Z0 by auto. apply Z.eqb_neq in Z0. pose proof (val_nonneg _ (proj1 W)).
  destruct (sqr_cf_ok o (S (used a)) a W ltac:(lia)) as (r & E & Wr & V). destruct (sqr_spec false a W) as (r' & E' & Wr' & _ & V'). specialize (V' eq_refl).
  unfold sqr_c. rewrite E, E'. f_equal. assert (Q : mval a * mval a = val (dg a) * val (dg a)) by (unfold mval; destruct (neg a); ring).
  apply canon_eq; [| |congruence].
  - split; auto. intro D. unfold mval in V. rewrite D in V. cbn in V. destruct (neg r); nia.
  - split; auto. intro D. unfold mval at 1 in V'. rewrite D in V'. cbn in V'. destruct (neg r'); nia.
Qed.
