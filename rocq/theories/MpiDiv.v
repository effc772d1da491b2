(** Correctness of bit counting and division. *)
From Verif Require Import Base Bits MpiModel MpiSpec MpiDigits MpiMulModel MpiMul MpiMul2 MpiCanon MpiDivModel.

(** *** Bit length *)
Lemma land_high d k m : 0 <= k <= m -> 0 <= d < 2 ^ m ->
  (Z.land d (Z.shiftl (Z.ones (m - k)) k) =? 0) = (d <? 2 ^ k).
Proof.
  intros Hk Hd.
  assert (E : Z.land d (Z.shiftl (Z.ones (m - k)) k) = Z.shiftl (Z.shiftr d k) k).
  { apply Z.bits_inj'. intros i Hi. rewrite Z.land_spec, !Z.shiftl_spec by lia.
    destruct (Z.lt_ge_cases i k) as [L|L].
    - rewrite !(Z.testbit_neg_r _ (i - k)) by lia. apply andb_false_r.
    - rewrite Z.shiftr_spec by lia. replace (i - k + k) with i by lia.
      destruct (Z.lt_ge_cases i m) as [L'|L'].
      + rewrite Z.ones_spec_low by lia. apply andb_true_r.
      + rewrite (testbit_small d m i) by lia. reflexivity. }
  rewrite E. rewrite Z.shiftl_mul_pow2, Z.shiftr_div_pow2 by lia.
  pose proof (pow2_pos k ltac:(lia)).
  destruct (Z.ltb_spec d (2 ^ k)) as [L|L].
  - rewrite Z.div_small by lia. reflexivity.
  - assert (1 <= d / 2 ^ k) by (apply Z.div_le_lower_bound; lia). apply Z.eqb_neq. nia.
Qed.

Lemma bits_tab_ok i : 0 <= i < 256 -> nth (Z.to_nat i) bits_tab 0 = if i =? 0 then 0 else Z.log2 i + 1.
Proof.
  intro H.
  assert (A : forallb (fun n => nth n bits_tab 0 =? (if Z.of_nat n =? 0 then 0 else Z.log2 (Z.of_nat n) + 1)) (seq 0 256) = true)
    by (vm_compute; reflexivity).
  rewrite forallb_forall in A. specialize (A (Z.to_nat i)).
  rewrite in_seq, Z2Nat.id in A by lia. apply Z.eqb_eq. apply A. lia.
Qed.

Lemma bits_shift d k : 0 <= k -> 2 ^ k <= d < 2 ^ (k + 8) ->
  nth (Z.to_nat (Z.shiftr d k)) bits_tab 0 + k = Z.log2 d + 1.
Proof.
  intros Hk Hd. pose proof (pow2_pos k Hk).
  assert (0 < Z.shiftr d k < 256).
  { rewrite Z.shiftr_div_pow2 by auto. split.
    - apply Z.div_str_pos. lia.
    - apply Z.div_lt_upper_bound; [lia|]. rewrite Z.pow_add_r in Hd by lia. lia. }
  rewrite bits_tab_ok by lia. destruct (Z.eqb_spec (Z.shiftr d k) 0); [lia|].
  rewrite Z.log2_shiftr by lia. assert (k <= Z.log2 d) by (apply Z.log2_le_pow2; lia). lia.
Qed.

Lemma digit_bits_ok d : 0 <= d < B -> digit_bits d = if d =? 0 then 0 else Z.log2 d + 1.
Proof.
  intro H. unfold digit_bits.
  change 0xFFFFFFFF00000000 with (Z.shiftl (Z.ones (64 - 32)) 32).
  change 0xFFFF000000000000 with (Z.shiftl (Z.ones (64 - 48)) 48).
  change 0xFF00000000000000 with (Z.shiftl (Z.ones (64 - 56)) 56).
  change 0x0000FF0000000000 with (Z.shiftl (Z.ones (48 - 40)) 40).
  change 0xFFFF0000 with (Z.shiftl (Z.ones (32 - 16)) 16).
  change 0xFF000000 with (Z.shiftl (Z.ones (32 - 24)) 24).
  change 0xFF00 with (Z.shiftl (Z.ones (16 - 8)) 8).
  rewrite B_pow2 in H.
  rewrite (land_high d 32 64) by lia.
  destruct (Z.ltb_spec d (2 ^ 32)) as [L32|L32]; cbn [negb].
  - rewrite (land_high d 16 32) by lia. destruct (Z.ltb_spec d (2 ^ 16)) as [L16|L16]; cbn [negb].
    + rewrite (land_high d 8 16) by lia. destruct (Z.ltb_spec d (2 ^ 8)) as [L8|L8]; cbn [negb].
      * change (2 ^ 8) with 256 in L8. rewrite bits_tab_ok by lia. reflexivity.
      * rewrite (bits_shift d 8) by (try lia; exact (conj L8 L16)). destruct (Z.eqb_spec d 0); [lia|reflexivity].
    + rewrite (land_high d 24 32) by lia. destruct (Z.ltb_spec d (2 ^ 24)) as [L|L]; cbn [negb].
      * rewrite (bits_shift d 16) by (try lia; exact (conj L16 L)). destruct (Z.eqb_spec d 0); [lia|reflexivity].
      * rewrite (bits_shift d 24) by (try lia; exact (conj L L32)). destruct (Z.eqb_spec d 0); [lia|reflexivity].
  - rewrite (land_high d 48 64) by lia. destruct (Z.ltb_spec d (2 ^ 48)) as [L48|L48]; cbn [negb].
    + rewrite (land_high d 40 48) by lia. destruct (Z.ltb_spec d (2 ^ 40)) as [L|L]; cbn [negb].
      * rewrite (bits_shift d 32) by (try lia; exact (conj L32 L)). destruct (Z.eqb_spec d 0); [lia|reflexivity].
      * rewrite (bits_shift d 40) by (try lia; exact (conj L L48)). destruct (Z.eqb_spec d 0); [lia|reflexivity].
    + rewrite (land_high d 56 64) by lia. destruct (Z.ltb_spec d (2 ^ 56)) as [L|L]; cbn [negb].
      * rewrite (bits_shift d 48) by (try lia; exact (conj L48 L)). destruct (Z.eqb_spec d 0); [lia|reflexivity].
      * rewrite (bits_shift d 56) by (try lia; exact (conj L (proj2 H))). destruct (Z.eqb_spec d 0); [lia|reflexivity].
Qed.

Lemma val_last l : l <> [] -> exists lo, val l = lo + B ^ Z.of_nat (length l - 1) * last l 0 /\
  (digits l -> 0 <= lo < B ^ Z.of_nat (length l - 1)).
Proof.
  intro N. destruct (exists_last N) as (l' & d & ->). exists (val l').
  rewrite val_app, app_length, last_last. cbn [length val]. replace (length l' + 1 - 1)%nat with (length l') by lia.
  split; [ring|]. intro D. apply digits_app in D as [D _]. split; [apply val_nonneg; auto|apply val_lt; auto].
Qed.

Lemma last_digit l : digits l -> 0 <= last l 0 < B.
Proof.
  intro D. destruct l as [|d l]; [cbn; pose proof B_pos; lia|].
  unfold digits in D. rewrite Forall_forall in D. apply D.
  destruct (exists_last (l := d :: l) ltac:(discriminate)) as (l' & e & ->). rewrite last_last. apply in_or_app. right; left; reflexivity.
Qed.

Lemma count_bits_ok a : wf a -> count_bits a = if val (dg a) =? 0 then 0 else Z.log2 (val (dg a)) + 1.
Proof.
  intros [D N]. unfold count_bits. destruct (dg a) as [|d l] eqn:E; [reflexivity|].
  pose proof (normal_val_pos _ D N ltac:(discriminate)) as P.
  destruct (Z.eqb_spec (val (d :: l)) 0); [lia|].
  destruct N as [N|N]; [discriminate|]. pose proof (last_digit _ D) as LD.
  rewrite digit_bits_ok by auto. destruct (Z.eqb_spec (last (d :: l) 0) 0); [contradiction|].
  destruct (val_last (d :: l) ltac:(discriminate)) as (lo & V & Hlo). specialize (Hlo D).
  set (k := (length (d :: l) - 1)%nat) in *. set (t := last (d :: l) 0) in *.
  replace (Z.of_nat (length (d :: l)) - 1) with (Z.of_nat k) by (unfold k; cbn [length]; lia).
  rewrite V. rewrite Bn_pow2 in *.
  assert (Ht : 0 < t) by lia. pose proof (Z.log2_spec t Ht) as LS. pose proof (Z.log2_nonneg t).
  set (K := 2 ^ (64 * Z.of_nat k)) in *. assert (HK : 0 < K) by (apply pow2_pos; lia).
  assert (Z.log2 (lo + K * t) = 64 * Z.of_nat k + Z.log2 t).
  { apply Z.log2_unique; [lia|]. rewrite Z.pow_succ_r, Z.pow_add_r by lia. fold K.
    rewrite Z.pow_succ_r in LS by lia. split; [nia|].
    assert (K * (t + 1) <= K * (2 * 2 ^ Z.log2 t)) by (apply Z.mul_le_mono_nonneg_l; lia). lia. }
  rewrite H0. lia.
Qed.

(** *** Quotient digit estimation, over plain integers *)
Section Estimate.
Variables (x y' P X3 Y2 xl yl yt y0 xi x1 x0 : Z).
Hypothesis HP : 0 < P.
Hypothesis Hx : x * B = X3 * P + xl.
Hypothesis Hy : y' * B = Y2 * P + yl.
Hypothesis Hxl : 0 <= xl < P.
Hypothesis Hyl : 0 <= yl < P.
Hypothesis HX3 : X3 = (xi * B + x1) * B + x0.
Hypothesis HY2 : Y2 = yt * B + y0.
Hypothesis Hxi : 0 <= xi < B.
Hypothesis Hx1 : 0 <= x1 < B.
Hypothesis Hx0 : 0 <= x0 < B.
Hypothesis Hy0 : 0 <= y0 < B.
Hypothesis Hyt : B <= 4 * yt.
Hypothesis Hytb : yt < B.
Hypothesis Hlt : x < y' * B.

Let Xt := xi * B + x1.

Lemma est_pos : 0 < yt /\ 0 <= X3 /\ 0 < Y2 /\ 0 <= Xt /\ 0 <= x /\ 0 < y'.
Proof.
  pose proof B_pos as HB. assert (0 < yt) by lia. assert (0 <= xi * B) by (apply Z.mul_nonneg_nonneg; lia).
  assert (0 <= Xt) by (unfold Xt; lia).
  assert (0 <= X3) by (rewrite HX3; fold Xt; assert (0 <= Xt * B) by (apply Z.mul_nonneg_nonneg; lia); lia).
  assert (0 < Y2) by (rewrite HY2; assert (0 < yt * B) by (apply Z.mul_pos_pos; lia); lia).
  repeat split; auto.
  - assert (0 <= x * B) by (rewrite Hx; assert (0 <= X3 * P) by (apply Z.mul_nonneg_nonneg; lia); lia). nia.
  - assert (0 < y' * B) by (rewrite Hy; assert (0 < Y2 * P) by (apply Z.mul_pos_pos; lia); lia). nia.
Qed.

Lemma est_y_lo : yt * P <= y'.
Proof.
  destruct est_pos as (? & ? & ? & ? & ? & ?).
  apply Z.mul_le_mono_pos_r with (p := B); auto. rewrite Hy, HY2.
  assert (0 <= y0 * P) by (apply Z.mul_nonneg_nonneg; lia). lia.
Qed.

Lemma est_y_hi : y' < (yt + 1) * P.
Proof.
  destruct est_pos as (? & ? & ? & ? & ? & ?).
  apply Z.mul_lt_mono_pos_r with (p := B); auto. rewrite Hy, HY2.
  assert ((y0 + 1) * P <= B * P) by (apply Z.mul_le_mono_nonneg_r; lia). lia.
Qed.

Lemma est_x_lo : Xt * P <= x.
Proof.
  apply Z.mul_le_mono_pos_r with (p := B); auto. rewrite Hx, HX3. fold Xt.
  assert (0 <= x0 * P) by (apply Z.mul_nonneg_nonneg; lia). lia.
Qed.

Lemma est_x_hi : x < (Xt + 1) * P.
Proof.
  apply Z.mul_lt_mono_pos_r with (p := B); auto. rewrite Hx, HX3. fold Xt.
  assert ((x0 + 1) * P <= B * P) by (apply Z.mul_le_mono_nonneg_r; lia). lia.
Qed.

Lemma est_xi : xi <= yt.
Proof.
  pose proof est_y_hi as H1. pose proof est_x_lo as H2. destruct est_pos as (? & ? & ? & ? & ? & ?).
  assert (G : Xt * P < (yt + 1) * B * P).
  { assert (y' * B < (yt + 1) * P * B) by (apply Z.mul_lt_mono_pos_r; auto). lia. }
  apply Z.mul_lt_mono_pos_r in G; auto. unfold Xt in G.
  assert (G2 : xi * B < (yt + 1) * B) by lia. apply Z.mul_lt_mono_pos_r in G2; auto. lia.
Qed.

Let qd := x / y'.

Lemma est_qd : qd * y' <= x < (qd + 1) * y' /\ 0 <= qd <= B - 1.
Proof.
  destruct est_pos as (? & ? & ? & ? & ? & ?).
  pose proof (Z.div_mod x y' ltac:(lia)) as D. pose proof (Z.mod_pos_bound x y' ltac:(lia)) as M.
  fold qd in D. assert (0 <= qd) by (apply Z.div_pos; lia).
  assert (qd < B) by (apply Z.div_lt_upper_bound; lia). lia.
Qed.

Definition est_q0 : Z :=
  if xi =? yt then B - 1 else let tmp := Xt / yt in if B - 1 <? tmp then B - 1 else tmp.

Lemma est_q0_ok : qd <= est_q0 <= qd + 4 /\ est_q0 * yt <= Xt /\ 0 <= est_q0 <= B - 1.
Proof.
  destruct est_pos as (Pyt & PX3 & PY2 & PXt & Px & Py). destruct est_qd as [[Q1 Q2] [Q3 Q4]].
  pose proof est_xi as XI. pose proof est_y_lo as YL. pose proof est_y_hi as YH. pose proof est_x_lo as XL. pose proof est_x_hi as XH.
  assert (Hdiv : qd * yt <= Xt).
  { assert (qd * yt * P < (Xt + 1) * P).
    { assert (qd * (yt * P) <= qd * y') by (apply Z.mul_le_mono_nonneg_l; lia). lia. }
    apply Z.mul_lt_mono_pos_r in H; auto. lia. }
  assert (G : qd <= est_q0 /\ est_q0 * yt <= Xt /\ 0 <= est_q0 <= B - 1).
  { unfold est_q0. destruct (Z.eqb_spec xi yt) as [E|E].
    - split; [auto|]. split; [unfold Xt; rewrite E; lia|pose proof B_gt1; lia].
    - cbv zeta. assert (qd <= Xt / yt) by (apply Z.div_le_lower_bound; lia).
      pose proof (Z.mul_div_le Xt yt Pyt).
      destruct (Z.ltb_spec (B - 1) (Xt / yt)) as [L|L].
      + split; [auto|]. split; [|lia].
        assert ((B - 1) * yt <= (Xt / yt) * yt) by (apply Z.mul_le_mono_nonneg_r; lia). lia.
      + split; [auto|]. split; lia. }
  destruct G as (G1 & G2 & G3). split; [|split; auto]. split; auto.
  assert (H1 : est_q0 * yt * P < (qd + 1) * (yt + 1) * P).
  { assert (est_q0 * yt * P <= Xt * P) by (apply Z.mul_le_mono_nonneg_r; lia).
    assert ((qd + 1) * y' <= (qd + 1) * ((yt + 1) * P)) by (apply Z.mul_le_mono_nonneg_l; lia). lia. }
  apply Z.mul_lt_mono_pos_r in H1; auto.
  assert ((est_q0 - qd - 1) * yt < 4 * yt) by lia.
  apply Z.mul_lt_mono_pos_r in H; auto. lia.
Qed.

Lemma est_qd_ref : qd * Y2 <= X3.
Proof.
  destruct est_pos as (Pyt & PX3 & PY2 & PXt & Px & Py). destruct est_qd as [[Q1 Q2] [Q3 Q4]].
  assert (qd * Y2 * P < (X3 + 1) * P).
  { assert (qd * (y' * B) <= x * B).
    { rewrite Z.mul_assoc. apply Z.mul_le_mono_nonneg_r; [pose proof B_pos; lia|auto]. }
    rewrite Hy in H. assert (0 <= qd * yl) by (apply Z.mul_nonneg_nonneg; lia). lia. }
  apply Z.mul_lt_mono_pos_r in H; auto. lia.
Qed.

Lemma est_exit q : 0 <= q <= est_q0 -> (q * Y2 <= X3 \/ xi = 0) -> q <= qd + 1.
Proof.
  intros Hq HE. destruct est_pos as (Pyt & PX3 & PY2 & PXt & Px & Py). destruct est_qd as [[Q1 Q2] [Q3 Q4]].
  destruct est_q0_ok as (_ & E2 & E3).
  pose proof est_y_hi as YH. pose proof est_x_lo as XL.
  destruct (Z.le_gt_cases q (qd + 1)) as [L|L]; auto. exfalso.
  assert (H0 : x < (q - 1) * y').
  { assert ((qd + 1) * y' <= (q - 1) * y') by (apply Z.mul_le_mono_nonneg_r; lia). lia. }
  destruct HE as [HE|HE].
  - assert (H1 : x * B < (q - 1) * (y' * B)).
    { rewrite Z.mul_assoc. apply Z.mul_lt_mono_pos_r; auto. }
    rewrite Hx, Hy in H1.
    assert (q * Y2 * P <= X3 * P) by (apply Z.mul_le_mono_nonneg_r; lia).
    assert ((q - 1) * yl <= (q - 1) * P) by (apply Z.mul_le_mono_nonneg_l; lia).
    assert (Y2 * P < (q - 1) * P) by lia. apply Z.mul_lt_mono_pos_r in H3; auto.
    rewrite HY2 in H3. assert (1 * B <= yt * B) by (apply Z.mul_le_mono_nonneg_r; pose proof B_pos; lia). lia.
  - assert (EX : Xt = x1) by (unfold Xt; rewrite HE; ring).
    assert (Hq0 : q * yt <= x1).
    { rewrite EX in E2. assert (q * yt <= est_q0 * yt) by (apply Z.mul_le_mono_nonneg_r; lia). lia. }
    assert (H1 : (q - 1) * y' <= (q - 1) * ((yt + 1) * P)) by (apply Z.mul_le_mono_nonneg_l; lia).
    assert (q * yt * P <= Xt * P) by (apply Z.mul_le_mono_nonneg_r; lia).
    assert (q * yt * P < (q - 1) * (yt + 1) * P) by lia. apply Z.mul_lt_mono_pos_r in H2; auto.
    assert (yt + 1 < q) by lia.
    assert (q * yt < 4 * yt) by lia. apply Z.mul_lt_mono_pos_r in H4; auto.
    unfold B in Hyt. lia.
Qed.
End Estimate.

(** *** Digit views *)
Lemma nth_skipn0 (l : list Z) k j : nth j (skipn k l) 0 = nth (k + j) l 0.
Proof.
  revert l. induction k as [|k IH]; intros l; [reflexivity|].
  destruct l as [|d l]; [rewrite skipn_nil; destruct j; reflexivity|]. cbn [skipn]. rewrite IH. reflexivity.
Qed.

Lemma val_le3 l : (length l <= 3)%nat -> val l = nth 0 l 0 + B * nth 1 l 0 + B * B * nth 2 l 0.
Proof.
  destruct l as [|a [|b [|c [|d l]]]]; cbn [length nth val]; intro H; try lia; ring.
Qed.

Lemma top_view l i : digits l -> (1 <= i <= length l)%nat -> (length l <= i + 1)%nat ->
  exists xl, val l * B = ((nth i l 0 * B + nth (i - 1) l 0) * B + (if (i <=? 1)%nat then 0 else nth (i - 2) l 0)) * B ^ Z.of_nat (i - 1) + xl
    /\ 0 <= xl < B ^ Z.of_nat (i - 1).
Proof.
  intros D Hi HL. pose proof B_pos as HB. destruct (Nat.leb_spec i 1) as [L|L].
  - assert (i = 1%nat) by lia. subst i. exists 0. cbn [Nat.sub].
    change (Z.of_nat 0) with 0. rewrite Z.pow_0_r. split; [|lia].
    rewrite (val_le3 l) by lia. rewrite (nth_overflow l 0 (n := 2)) by lia. ring.
  - exists (B * val (firstn (i - 2) l)).
    rewrite <- (firstn_skipn (i - 2) l) at 1. rewrite val_app.
    rewrite firstn_length_le by lia.
    rewrite (val_le3 (skipn (i - 2) l)) by (rewrite skipn_length; lia).
    rewrite !nth_skipn0. replace (i - 2 + 0)%nat with (i - 2)%nat by lia.
    replace (i - 2 + 1)%nat with (i - 1)%nat by lia. replace (i - 2 + 2)%nat with i by lia.
    replace (Z.of_nat (i - 1)) with (Z.succ (Z.of_nat (i - 2))) by lia. rewrite Z.pow_succ_r by lia.
    split; [ring|]. pose proof (val_nonneg _ (digits_firstn (i - 2) l D)).
    pose proof (val_lt _ (digits_firstn (i - 2) l D)) as LT. rewrite firstn_length_le in LT by lia.
    split; [apply Z.mul_nonneg_nonneg; lia|apply Z.mul_lt_mono_pos_l; auto].
Qed.

Lemma top_view2 l t : digits l -> length l = S t ->
  exists yl, val l * B = (nth t l 0 * B + (if Nat.eqb t 0 then 0 else nth (t - 1) l 0)) * B ^ Z.of_nat t + yl
    /\ 0 <= yl < B ^ Z.of_nat t.
Proof.
  intros D HL. pose proof B_pos as HB. destruct (Nat.eqb_spec t 0) as [->|N].
  - exists 0. change (Z.of_nat 0) with 0. rewrite Z.pow_0_r. split; [|lia].
    rewrite (val_le3 l) by lia. rewrite (nth_overflow l 0 (n := 2)), (nth_overflow l 0 (n := 1)) by lia. ring.
  - exists (B * val (firstn (t - 1) l)).
    rewrite <- (firstn_skipn (t - 1) l) at 1. rewrite val_app.
    rewrite firstn_length_le by lia.
    rewrite (val_le3 (skipn (t - 1) l)) by (rewrite skipn_length; lia).
    rewrite !nth_skipn0. replace (t - 1 + 0)%nat with (t - 1)%nat by lia.
    replace (t - 1 + 1)%nat with t by lia. rewrite (nth_overflow l 0 (n := (t - 1 + 2))) by lia.
    replace (Z.of_nat t) with (Z.succ (Z.of_nat (t - 1))) by lia. rewrite Z.pow_succ_r by lia.
    split; [ring|]. pose proof (val_nonneg _ (digits_firstn (t - 1) l D)).
    pose proof (val_lt _ (digits_firstn (t - 1) l D)) as LT. rewrite firstn_length_le in LT by lia.
    split; [apply Z.mul_nonneg_nonneg; lia|apply Z.mul_lt_mono_pos_l; auto].
Qed.

(** Comparing against the unnormalised three-digit window. *)
Lemma cmp3 t x0 x1 x2 : wf t -> 0 <= x0 < B -> 0 <= x1 < B -> 0 <= x2 < B -> val (dg t) < B * B * B ->
  (cmp_abs t (mkmpi false [x0; x1; x2]) = 1 -> (x2 * B + x1) * B + x0 < val (dg t)) /\
  (cmp_abs t (mkmpi false [x0; x1; x2]) <> 1 -> val (dg t) <= (x2 * B + x1) * B + x0 \/ x2 = 0).
Proof.
  intros [D N] H0 H1 H2 HV. pose proof B_pos as HB.
  assert (HL : (length (dg t) <= 3)%nat).
  { destruct (le_lt_dec (length (dg t)) 3) as [|L]; auto. destruct (dg t) as [|d l] eqn:E; [cbn in L; lia|].
    pose proof (normal_pos d l D N) as P. cbn [length] in L.
    assert (B ^ 3 <= B ^ Z.of_nat (length l)) by (apply Z.pow_le_mono_r; lia).
    replace (B ^ 3) with (B * B * B) in H by ring. lia. }
  unfold cmp_abs, used. cbn [dg length].
  destruct (Nat.ltb_spec (length (dg t)) 3) as [L|L].
  - split; [discriminate|]. intros _.
    destruct (Z.eq_dec x2 0) as [|NZ]; auto. left.
    pose proof (val_lt _ D) as V.
    assert (B ^ Z.of_nat (length (dg t)) <= B ^ 2) by (apply Z.pow_le_mono_r; lia).
    replace (B ^ 2) with (B * B) in H by ring.
    assert (1 * (B * B) <= x2 * (B * B)) by (apply Z.mul_le_mono_nonneg_r; lia).
    assert (0 <= x1 * B) by (apply Z.mul_nonneg_nonneg; lia). lia.
  - destruct (Nat.ltb_spec 3 (length (dg t))) as [L'|L']; [lia|].
    rewrite cmp_digs_spec; [|auto| |cbn [length]; lia].
    2:{ repeat (apply digits_cons; split; [auto|]). auto. }
    cbn [val]. split; intro E; [|left]; lia.
Qed.

Lemma mul_dig2 y0 y1 q : 0 <= y0 < B -> 0 < y1 < B -> 0 <= q < B ->
  exists t, mul_dig false (mkmpi false [y0; y1]) q = Ok t /\ wf t /\ val (dg t) = (y1 * B + y0) * q.
Proof.
  intros H0 H1 Hq.
  assert (W : wf (mkmpi false [y0; y1])).
  { split; cbn [dg]; [repeat (apply digits_cons; split; [lia|]); auto|]. apply normal_cons, normal_one. lia. }
  destruct (mul_dig_spec false _ q W Hq) as (r & E & Wr & V & C & _). specialize (C eq_refl).
  exists r. split; auto. split; auto.
  assert (M : mval (mkmpi false [y0; y1]) = y1 * B + y0) by (unfold mval; cbn [neg dg val]; ring).
  rewrite M in V. rewrite <- V. apply canon_nonneg; auto. rewrite V.
  assert (0 <= y1 * B) by (apply Z.mul_nonneg_nonneg; pose proof B_pos; lia). apply Z.mul_nonneg_nonneg; lia.
Qed.

Lemma refine_ok (qd y1 y0 x2 x1 x0 q0 : Z) :
  0 <= y0 < B -> 0 < y1 < B -> 0 <= x0 < B -> 0 <= x1 < B -> 0 <= x2 < B ->
  0 <= qd -> q0 <= B - 1 -> 
  qd * (y1 * B + y0) <= (x2 * B + x1) * B + x0 ->
  (forall q, 0 <= q <= q0 -> q * (y1 * B + y0) <= (x2 * B + x1) * B + x0 \/ x2 = 0 -> q <= qd + 1) ->
  forall f q, qd <= q <= q0 -> q - qd < Z.of_nat f ->
  exists q', div_refine f y1 y0 x2 x1 x0 ((q + 1) mod B) = Ok q' /\ qd <= q' <= qd + 1 /\ 0 <= q' < B.
Proof.
  intros Hy0 Hy1 Hx0 Hx1 Hx2 Hqd Hq0 Href Hexit. pose proof B_pos as HB.
  induction f as [|f IH]; intros q Hq Hf; [lia|]. cbn [div_refine].
  assert (E : ((q + 1) mod B - 1) mod B = q).
  { rewrite Zminus_mod_idemp_l. replace (q + 1 - 1) with q by lia. apply Z.mod_small. lia. }
  rewrite E.
  destruct (mul_dig2 y0 y1 q) as (t & -> & W & V); try lia. cbn [bind].
  assert (HV : val (dg t) < B * B * B).
  { rewrite V. assert (y1 * B <= (B - 1) * B) by (apply Z.mul_le_mono_nonneg_r; lia).
    assert (0 <= y1 * B) by (apply Z.mul_nonneg_nonneg; lia).
    assert ((y1 * B + y0) * q <= (B * B - 1) * (B - 1)) by (apply Z.mul_le_mono_nonneg; lia). nia. }
  destruct (cmp3 t x0 x1 x2 W Hx0 Hx1 Hx2 HV) as [C1 C2].
  destruct (Z.eqb_spec (cmp_abs t (mkmpi false [x0; x1; x2])) 1) as [E1|E1].
  - specialize (C1 E1). rewrite V in C1.
    assert (qd < q).
    { destruct (Z.le_gt_cases q qd) as [L|L]; auto. exfalso.
      assert (q = qd) by lia. subst. lia. }
    destruct (IH (q - 1)) as (q' & E' & R); [lia|lia|].
    replace (q - 1 + 1) with q in E' by lia. rewrite Z.mod_small in E' by lia. exists q'. auto.
  - specialize (C2 E1). rewrite V in C2. exists q. split; auto.
    assert (q <= qd + 1) by (apply Hexit; [lia|]; destruct C2; [left; lia|right; auto]). lia.
Qed.

Lemma wf_len_le a n : wf a -> val (dg a) < B ^ Z.of_nat n -> (used a <= n)%nat.
Proof.
  intros [D N] H. destruct (le_lt_dec (used a) n) as [|L]; auto. unfold used in *.
  destruct (dg a) as [|d l] eqn:E; [cbn in L; lia|]. cbn [length] in L.
  pose proof (normal_pos d l D N). assert (B ^ Z.of_nat n <= B ^ Z.of_nat (length l)) by (apply Z.pow_le_mono_r; pose proof B_pos; lia). lia.
Qed.

Lemma digits_nth l k : digits l -> 0 <= nth k l 0 < B.
Proof. apply nth_digit. Qed.

Lemma Bn_pos n : 0 < B ^ Z.of_nat n.
Proof. apply Z.pow_pos_nonneg; [apply B_pos|lia]. Qed.

Lemma last_nth (l : list Z) t : length l = S t -> last l 0 = nth t l 0.
Proof.
  revert t. induction l as [|d l IH]; intros t H; [discriminate|]. cbn [length] in H. injection H as H. subst t.
  destruct l as [|e l]; [reflexivity|]. exact (IH (length l) eq_refl).
Qed.

Lemma div_step_ok i t x y : wf x -> wf y -> neg x = false -> neg y = false ->
  used y = S t -> B <= 4 * last (dg y) 0 -> (t < i)%nat -> (i <= used x)%nat ->
  val (dg x) < val (dg y) * B ^ Z.of_nat (i - t) ->
  let y' := val (dg y) * B ^ Z.of_nat (i - t - 1) in
  exists x', div_step i t x y = Ok (val (dg x) / y', x') /\ wf x' /\ neg x' = false /\
    val (dg x') = val (dg x) mod y' /\ 0 <= val (dg x) / y' < B.
Proof.
  intros Wx Wy Nx Ny Uy Hyt Hti Hix Hlt y'. pose proof B_pos as HB.
  pose proof (proj1 Wx) as Dx. pose proof (proj1 Wy) as Dy.
  assert (Pi : Z.of_nat (i - t) = Z.succ (Z.of_nat (i - t - 1))) by lia.
  rewrite Pi, Z.pow_succ_r in Hlt by lia.
  assert (Hlt' : val (dg x) < y' * B) by (unfold y'; lia).
  assert (Ux : (used x <= i + 1)%nat).
  { apply wf_len_le; auto. pose proof (val_lt _ Dy) as Ly. unfold used in Uy. rewrite Uy in Ly.
    replace (B ^ Z.of_nat (i + 1)) with (B ^ Z.of_nat (S t) * (B * B ^ Z.of_nat (i - t - 1))).
    - assert (val (dg y) * (B * B ^ Z.of_nat (i - t - 1)) < B ^ Z.of_nat (S t) * (B * B ^ Z.of_nat (i - t - 1))).
      { apply Z.mul_lt_mono_pos_r; auto. apply Z.mul_pos_pos; auto. apply Bn_pos. }
      lia.
    - rewrite <- Z.pow_succ_r, <- Z.pow_add_r by lia. f_equal. lia. }
  destruct (top_view (dg x) i Dx) as (xl & Vx & Hxl); [unfold used in *; lia|unfold used in *; lia|].
  destruct (top_view2 (dg y) t Dy Uy) as (yl & Vy & Hyl).
  rewrite (last_nth (dg y) t Uy) in Hyt.
  unfold div_step. cbv zeta.
  destruct (Nat.eqb_spec i 0) as [|_]; [lia|].
  pose proof (digits_nth (dg x) i Dx) as Bxi. pose proof (digits_nth (dg x) (i - 1) Dx) as Bx1.
  pose proof (digits_nth (dg y) t Dy) as Byt.
  set (xi := nth i (dg x) 0) in *. set (x1 := nth (i - 1) (dg x) 0) in *. set (yt := nth t (dg y) 0) in *.
  set (x0 := if (i <=? 1)%nat then 0 else nth (i - 2) (dg x) 0) in *.
  set (y0 := if Nat.eqb t 0 then 0 else nth (t - 1) (dg y) 0) in *.
  assert (Bx0 : 0 <= x0 < B) by (unfold x0; destruct (i <=? 1)%nat; [lia|apply digits_nth; auto]).
  assert (By0 : 0 <= y0 < B) by (unfold y0; destruct (Nat.eqb t 0); [lia|apply digits_nth; auto]).
  set (P := B ^ Z.of_nat (i - 1)) in *. assert (HP : 0 < P) by apply Bn_pos.
  set (w := B ^ Z.of_nat (i - t - 1)) in *. assert (Hw : 0 < w) by apply Bn_pos.
  assert (PW : P = B ^ Z.of_nat t * w).
  { unfold P, w. rewrite <- Z.pow_add_r by lia. f_equal. lia. }
  assert (Vy' : y' * B = (yt * B + y0) * P + yl * w).
  { unfold y'. rewrite PW. transitivity (val (dg y) * B * w); [ring|]. rewrite Vy. ring. }
  assert (Hyl' : 0 <= yl * w < P).
  { rewrite PW. split; [apply Z.mul_nonneg_nonneg; lia|apply Z.mul_lt_mono_pos_r; lia]. }
  assert (ELOR : Z.lor (Z.shiftl xi 64) x1 = xi * B + x1).
  { rewrite Z.shiftl_mul_pow2 by lia. apply lor_shifted_small; [lia|exact Bx1]. }
  rewrite ELOR.
  assert (Hytp : 0 < yt) by lia.
  set (x3 := (xi * B + x1) * B + x0) in *.
  pose proof (est_q0_ok (val (dg x)) y' P x3 (yt * B + y0) xl (yl * w) yt y0 xi x1 x0 HP Vx Vy' Hxl Hyl' eq_refl eq_refl Bxi Bx1 Bx0 By0 Hyt (proj2 Byt) Hlt') as EQ0.
  pose proof (est_qd_ref (val (dg x)) y' P x3 (yt * B + y0) xl (yl * w) yt y0 xi x1 x0 HP Vx Vy' Hxl Hyl' eq_refl eq_refl Bxi Bx1 Bx0 By0 Hyt (proj2 Byt) Hlt') as EREF.
  pose proof (est_exit (val (dg x)) y' P x3 (yt * B + y0) xl (yl * w) yt y0 xi x1 x0 HP Vx Vy' Hxl Hyl' eq_refl eq_refl Bxi Bx1 Bx0 By0 Hyt (proj2 Byt) Hlt') as EEXIT.
  pose proof (est_qd (val (dg x)) y' P x3 (yt * B + y0) xl (yl * w) yt y0 xi x1 x0 HP Vx Vy' Hxl Hyl' eq_refl eq_refl Bxi Bx1 Bx0 By0 Hyt (proj2 Byt) Hlt') as EQD.
  unfold est_q0 in EQ0, EEXIT. cbv zeta in EQ0, EEXIT.
  set (q0 := if xi =? yt then B - 1 else if B - 1 <? (xi * B + x1) / yt then B - 1 else (xi * B + x1) / yt) in *.
  set (qd := val (dg x) / y') in *.
  destruct (refine_ok qd yt y0 xi x1 x0 q0) with (f := 8%nat) (q := q0) as (q' & -> & Hq' & Bq'); try lia.
  { intros q Hq HE. apply EEXIT; auto. }
  cbn [bind].
  destruct (mul_dig_spec false y q' Wy Bq') as (t1 & -> & Wt1 & Vt1 & Ct1 & _). specialize (Ct1 eq_refl). cbn [bind].
  destruct (shld_mval t1 (i - t - 1) Wt1) as [Ws Vs]. fold w in Vs.
  destruct (sub_spec x (shld t1 (i - t - 1)) Wx Ws) as (x' & -> & Wx' & Vx' & Cx'). cbn [bind].
  assert (Mx : mval x = val (dg x)) by (unfold mval; rewrite Nx; auto).
  assert (My : mval y = val (dg y)) by (unfold mval; rewrite Ny; auto).
  assert (Vx'' : mval x' = val (dg x) - q' * y').
  { rewrite Vx', Vs, Vt1, Mx, My. unfold y'. ring. }
  assert (Cx : canon x') by (split; auto; apply Cx'; intros _; auto).
  pose proof (Z.div_mod (val (dg x)) y') as DM. fold qd in DM.
  assert (Py' : 0 < y') by exact (proj2 (proj2 (proj2 (proj2 (proj2 (est_pos (val (dg x)) y' P x3 (yt * B + y0) xl (yl * w) yt y0 xi x1 x0 HP Vx Vy' Hxl Hyl' eq_refl eq_refl Bxi Bx1 Bx0 By0 Hyt (proj2 Byt))))))).
  specialize (DM ltac:(lia)).
  rewrite (canon_neg x' Cx). 
  destruct (Z.ltb_spec (mval x') 0) as [L|L].
  - (* add back *)
    assert (q' = qd + 1).
    { destruct (Z.eq_dec q' qd) as [Eq|]; [|lia]. rewrite Eq in Vx''. lia. }
    destruct (shld_mval y (i - t - 1) Wy) as [Wsy Vsy]. fold w in Vsy.
    destruct (add_spec x' (shld y (i - t - 1)) Wx' Wsy) as (x2 & -> & Wx2 & Vx2 & Cx2). cbn [bind].
    exists x2. assert (C2 : canon x2) by (split; auto; apply Cx2; left; exact (proj2 Cx)).
    assert (V2 : mval x2 = val (dg x) mod y').
    { rewrite Vx2, Vsy, Vx'', My. fold y'. subst q'. unfold y' in *. lia. }
    pose proof (Z.mod_pos_bound (val (dg x)) y' Py').
    destruct (canon_nonneg x2 C2 ltac:(lia)) as [N2 E2].
    split; [|split; [|split; [|split]]]; auto; try lia.
    repeat f_equal. subst q'. replace (qd + 1 - 1) with qd by lia. apply Z.mod_small. lia.
  - assert (q' = qd).
    { destruct (Z.eq_dec q' (qd + 1)) as [Eq|]; [|lia]. exfalso. rewrite Vx'', Eq in L.
      pose proof (Z.mod_pos_bound (val (dg x)) y' Py'). lia. }
    subst q'. exists x'. destruct (canon_nonneg x' Cx L) as [N2 E2].
    split; [|split; [|split; [|split]]]; auto; try lia.
Qed.

Lemma div_loop_ok t y : wf y -> neg y = false -> used y = S t -> B <= 4 * last (dg y) 0 ->
  forall k x acc, wf x -> neg x = false -> digits acc ->
  val (dg x) < val (dg y) * B ^ Z.of_nat k ->
  exists q x', div_loop k t x y acc = Ok (q, x') /\ digits q /\ wf x' /\ neg x' = false /\
    val q * val (dg y) + val (dg x') = val acc * B ^ Z.of_nat k * val (dg y) + val (dg x) /\
    val (dg x') < val (dg y).
Proof.
  intros Wy Ny Uy Hyt. pose proof B_pos as HB.
  induction k as [|k IH]; intros x acc Wx Nx Da Hx; cbn [div_loop].
  - change (Z.of_nat 0) with 0 in *. rewrite Z.pow_0_r in *. exists acc, x. repeat split; auto; try apply Wx; lia.
  - pose proof (val_nonneg _ (proj1 Wx)) as Px.
    assert (Py : B ^ Z.of_nat t <= val (dg y)).
    { destruct (dg y) as [|d l] eqn:E; [unfold used in Uy; rewrite E in Uy; discriminate|].
      unfold used in Uy. rewrite E in Uy. cbn [length] in Uy. injection Uy as <-.
      destruct Wy as [Dy Nyy]. rewrite E in *. apply normal_pos; auto. }
    rewrite Nat2Z.inj_succ, Z.pow_succ_r in * by lia.
    pose proof (Bn_pos k) as PK.
    destruct (Nat.ltb_spec (used x) (t + S k)) as [L|L].
    + destruct (IH x (0 :: acc)) as (q & x' & E & Dq & Wx' & Nx' & V & LT); auto.
      * apply digits_cons; split; auto. lia.
      * pose proof (val_lt _ (proj1 Wx)) as LX. fold (used x) in LX.
        assert (B ^ Z.of_nat (used x) <= B ^ Z.of_nat (t + k)) by (apply Z.pow_le_mono_r; lia).
        rewrite Nat2Z.inj_add, Z.pow_add_r in H by lia.
        assert (B ^ Z.of_nat t * B ^ Z.of_nat k <= val (dg y) * B ^ Z.of_nat k) by (apply Z.mul_le_mono_nonneg_r; lia). lia.
      * exists q, x'. split; auto. split; auto. split; auto. split; auto. split; auto.
        rewrite V. cbn [val]. ring.
    + destruct (div_step_ok (t + S k) t x y) as (x1 & -> & Wx1 & Nx1 & V1 & Bq); auto; try lia.
      { replace (t + S k - t)%nat with (S k) by lia. rewrite Nat2Z.inj_succ, Z.pow_succ_r by lia. auto. }
      replace (t + S k - t - 1)%nat with k in * by lia. cbn [bind].
      set (y' := val (dg y) * B ^ Z.of_nat k) in *.
      assert (Py' : 0 < y') by (apply Z.mul_pos_pos; [pose proof (Bn_pos t); lia|auto]).
      pose proof (Z.mod_pos_bound (val (dg x)) y' Py').
      pose proof (Z.div_mod (val (dg x)) y' ltac:(lia)) as DM.
      destruct (IH x1 (val (dg x) / y' :: acc)) as (q & x' & E & Dq & Wx' & Nx' & V & LT); auto.
      * apply digits_cons; split; auto.
      * lia.
      * exists q, x'. split; auto. split; auto. split; auto. split; auto. split; auto.
        rewrite V, V1. cbn [val]. rewrite DM at 3. unfold y' at 3. ring.
Qed.

Lemma div_top_ok y : canon y -> 0 < mval y -> forall f x q, canon x -> 0 <= mval x -> 0 <= q ->
  mval x < mval y * (Z.of_nat f + 1) -> q + Z.of_nat f < B ->
  exists x', div_top f x y q = Ok (q + mval x / mval y, x') /\ canon x' /\ mval x' = mval x mod mval y.
Proof.
  intros Cy Py. induction f as [|f IH]; intros x q Cx Px Hq Hx HB; cbn [div_top]; rewrite cmp_spec by auto.
  - assert (L : mval x < mval y) by lia. replace (Z.sgn (mval x - mval y)) with (-1) by lia. rewrite Z.eqb_refl.
    exists x. rewrite Z.div_small, Z.mod_small by lia. rewrite Z.add_0_r. auto.
  - destruct (Z.lt_ge_cases (mval x) (mval y)) as [L|L].
    + replace (Z.sgn (mval x - mval y)) with (-1) by lia. rewrite Z.eqb_refl.
      exists x. rewrite Z.div_small, Z.mod_small by lia. rewrite Z.add_0_r. auto.
    + destruct (Z.eqb_spec (Z.sgn (mval x - mval y)) (-1)) as [E|_]; [lia|].
      destruct (sub_spec x y) as (x1 & -> & W1 & V1 & C1); auto. cbn [bind].
      assert (Cx1 : canon x1) by (split; auto; apply C1; exact (proj2 Cx)).
      rewrite Z.mod_small by lia.
      destruct (IH x1 (q + 1) Cx1) as (x' & -> & Cx' & V'); try lia.
      exists x'. split; [|split; auto].
      * do 2 f_equal. rewrite V1. replace (mval x - mval y) with (mval x + (-1) * mval y) by ring.
        rewrite Z.div_add by lia. ring.
      * rewrite V', V1. replace (mval x - mval y) with (mval x + (-1) * mval y) by ring. apply Z.mod_add. lia.
Qed.

Lemma wf_len_pow a : wf a -> dg a <> [] -> B ^ Z.of_nat (used a - 1) <= val (dg a).
Proof.
  intros [D N] H. unfold used. destruct (dg a) as [|d l]; [contradiction|]. cbn [length].
  replace (S (length l) - 1)%nat with (length l) by lia. apply normal_pos; auto.
Qed.

Lemma norm_ok y : wf y -> dg y <> [] ->
  let b := count_bits y mod 64 in
  let norm := if b <? 63 then 63 - b else 0 in
  0 <= norm /\ wf (shl y norm) /\ B <= 4 * last (dg (shl y norm)) 0 /\ dg (shl y norm) <> [] /\
  neg (shl y norm) = neg y /\ val (dg (shl y norm)) = val (dg y) * 2 ^ norm.
Proof.
  intros W NE. cbv zeta. pose proof (normal_val_pos _ (proj1 W) (proj2 W) NE) as PV.
  rewrite count_bits_ok by auto. destruct (Z.eqb_spec (val (dg y)) 0) as [|_]; [lia|].
  set (n := Z.log2 (val (dg y)) + 1). assert (Hn : 0 < n) by (pose proof (Z.log2_nonneg (val (dg y))); lia).
  set (norm := if n mod 64 <? 63 then 63 - n mod 64 else 0).
  pose proof (Z.mod_pos_bound n 64 ltac:(lia)) as MB.
  assert (HN : 0 <= norm) by (unfold norm; destruct (Z.ltb_spec (n mod 64) 63); lia).
  destruct (shl_spec y norm W HN) as (W' & N' & V'). pose proof (pow2_pos norm HN) as PN.
  assert (PV' : 0 < val (dg (shl y norm))) by (rewrite V'; apply Z.mul_pos_pos; lia).
  assert (NE' : dg (shl y norm) <> []) by (intro E; rewrite E in PV'; cbn in PV'; lia).
  repeat split; auto; try apply W'.
  pose proof (count_bits_ok _ W') as CB. destruct (Z.eqb_spec (val (dg (shl y norm))) 0) as [|_]; [lia|].
  rewrite V', Z.log2_mul_pow2 in CB by lia.
  unfold count_bits in CB. pose proof (last_digit _ (proj1 W')) as LD.
  destruct (dg (shl y norm)) as [|d l] eqn:ED; [contradiction|].
  rewrite digit_bits_ok in CB by auto.
  set (t := last (d :: l) 0) in *.
  assert (Nt : t <> 0). { destruct W' as [_ [W'|W']]; rewrite ED in W'; [discriminate|exact W']. }
  destruct (Z.eqb_spec t 0) as [|_]; [contradiction|].
  assert (HM : (n + norm) mod 64 = 63).
  { unfold norm. pose proof (Z.div_mod n 64 ltac:(lia)).
    destruct (Z.ltb_spec (n mod 64) 63).
    - symmetry. apply (Z.mod_unique _ _ (n / 64)); lia.
    - symmetry. apply (Z.mod_unique _ _ (n / 64)); lia. }
  pose proof (Z.log2_spec t ltac:(lia)) as [L1 L2].
  assert (L3 : 0 <= Z.log2 t < 64).
  { split; [apply Z.log2_nonneg|]. apply Z.log2_lt_pow2; [lia|rewrite <- B_pow2; lia]. }
  assert (L4 : (Z.log2 t + 1) mod 64 = 63).
  { rewrite <- HM. replace (n + norm) with (Z.log2 t + 1 + (Z.of_nat (length (d :: l)) - 1) * 64) by (unfold n; lia).
    rewrite Z.mod_add by lia. reflexivity. }
  assert (L5 : Z.log2 t = 62).
  { destruct (Z.eq_dec (Z.log2 t) 63) as [E63|]; [rewrite E63 in L4; discriminate|]. rewrite Z.mod_small in L4 by lia. lia. }
  rewrite L5 in L1. rewrite B_pow2. change (2 ^ 64) with (4 * 2 ^ 62). lia.
Qed.

Lemma shl_0 a : shl a 0 = a. Proof. reflexivity. Qed.

Lemma div_abs_ok a b : wf a -> wf b -> val (dg b) <> 0 ->
  exists q r, div_abs a b = Ok (q, r) /\ wf q /\ wf r /\
    val (dg q) = val (dg a) / val (dg b) /\ val (dg r) = val (dg a) mod val (dg b) /\
    neg q = false /\ neg r = (if cmp_abs a b <? 0 then neg a else false).
Proof.
  intros Wa Wb NZ. pose proof B_pos as HB.
  pose proof (val_nonneg _ (proj1 Wa)) as Pa. pose proof (val_nonneg _ (proj1 Wb)) as Pb.
  unfold div_abs. rewrite is_zero_val by auto. destruct (Z.eqb_spec (val (dg b)) 0) as [|_]; [contradiction|].
  rewrite cmp_abs_spec by auto. destruct (Z.ltb_spec (Z.sgn (val (dg a) - val (dg b))) 0) as [L|L].
  { exists mzero, a. rewrite Z.div_small, Z.mod_small by lia. repeat split; auto; try apply Wa. }
  set (x := mkmpi false (dg a)). set (y := mkmpi false (dg b)).
  assert (Wx : wf x) by exact Wa. assert (Wy : wf y) by exact Wb.
  assert (NEy : dg y <> []) by (intro E; apply NZ; cbn [y dg] in E; rewrite E; reflexivity).
  destruct (norm_ok y Wy NEy) as (HN & WY & HY & NEY & NY & VY). cbv zeta.
  set (norm := if count_bits y mod 64 <? 63 then 63 - count_bits y mod 64 else 0) in *.
  assert (EX : (if norm =? 0 then x else shl x norm) = shl x norm)
    by (destruct (Z.eqb_spec norm 0) as [->|]; [rewrite shl_0|]; reflexivity).
  assert (EY : (if norm =? 0 then y else shl y norm) = shl y norm)
    by (destruct (Z.eqb_spec norm 0) as [->|]; [rewrite shl_0|]; reflexivity).
  rewrite EX, EY. clear EX EY.
  destruct (shl_spec x norm Wx HN) as (WX & NX & VX).
  pose proof (pow2_pos norm HN) as P2.
  set (X := shl x norm) in *. set (Y := shl y norm) in *. cbn [x y dg] in VX, VY. cbn [x y neg] in NX, NY.
  assert (LE : val (dg b) <= val (dg a)) by lia.
  assert (LEXY : val (dg Y) <= val (dg X)) by (rewrite VX, VY; apply Z.mul_le_mono_nonneg_r; lia).
  assert (PY : 0 < val (dg Y)) by (rewrite VY; apply Z.mul_pos_pos; lia).
  assert (NEX : dg X <> []) by (intro E; rewrite E in LEXY; cbn [val] in LEXY; lia).
  assert (UX : (1 <= used X)%nat) by (unfold used; destruct (dg X); [contradiction|cbn; lia]).
  assert (UY : (1 <= used Y)%nat) by (unfold used; destruct (dg Y); [contradiction|cbn; lia]).
  assert (ULE : (used Y <= used X)%nat).
  { apply wf_len_le; auto. pose proof (val_lt _ (proj1 WX)). unfold used at 1. lia. }
  set (n := (used X - 1)%nat) in *. set (t := (used Y - 1)%nat) in *.
  destruct (shld_mval Y (n - t) WY) as [WS VS].
  assert (MY : mval Y = val (dg Y)) by (unfold mval; rewrite NY; auto).
  assert (MX : mval X = val (dg X)) by (unfold mval; rewrite NX; auto).
  destruct (shld_spec Y (n - t) WY) as (_ & NS & _).
  assert (CS : canon (shld Y (n - t))) by (apply wf_canon; auto; rewrite NS; auto).
  assert (CX : canon X) by (apply wf_canon; auto).
  pose proof (Bn_pos (n - t)) as PW.
  rewrite MY in VS.
  assert (PS : 0 < mval (shld Y (n - t))) by (rewrite VS; apply Z.mul_pos_pos; auto).
  assert (HX4 : mval X < mval (shld Y (n - t)) * 4).
  { rewrite VS, MX. pose proof (val_lt _ (proj1 WX)) as LX. fold (used X) in LX.
    destruct (val_last (dg Y) NEY) as (lo & VL & Hlo). specialize (Hlo (proj1 WY)).
    fold (used Y) in *. fold t in VL, Hlo. 
    replace (used X) with (S n) in LX by lia. rewrite Nat2Z.inj_succ, Z.pow_succ_r in LX by lia.
    assert (EN : B ^ Z.of_nat n = B ^ Z.of_nat t * B ^ Z.of_nat (n - t)) by (rewrite <- Z.pow_add_r by lia; f_equal; lia).
    rewrite EN in LX. pose proof (Bn_pos t) as PT.
    assert (B * B ^ Z.of_nat t <= 4 * last (dg Y) 0 * B ^ Z.of_nat t) by (apply Z.mul_le_mono_nonneg_r; lia).
    assert (B * B ^ Z.of_nat t <= val (dg Y) * 4) by lia.
    assert (B * B ^ Z.of_nat t * B ^ Z.of_nat (n - t) <= val (dg Y) * 4 * B ^ Z.of_nat (n - t)) by (apply Z.mul_le_mono_nonneg_r; lia). lia. }
  destruct (div_top_ok _ CS PS 4 X 0 CX) as (x1 & -> & C1 & V1); try lia.
  { unfold B. lia. }
  cbn [bind]. rewrite Z.add_0_l.
  pose proof (Z.mod_pos_bound (mval X) _ PS) as MB.
  destruct (canon_nonneg x1 C1 ltac:(lia)) as [N1 E1].
  assert (Hqt : 0 <= mval X / mval (shld Y (n - t)) < B).
  { split; [apply Z.div_pos; [rewrite MX; apply val_nonneg, WX|lia]|]. apply Z.div_lt_upper_bound; [lia|]. unfold B. lia. }
  destruct (div_loop_ok t Y WY NY ltac:(lia) HY (n - t) x1 [mval X / mval (shld Y (n - t))])
    as (q & x' & -> & Dq & Wx' & Nx' & V & LT); auto.
  { apply digits_cons; auto. }
  { rewrite E1, V1, <- VS. apply MB. }
  cbn [bind]. exists (mkmpi false (adjust q)), (mkmpi false (dg (shr x' norm))). split; [reflexivity|].
  destruct (shr_spec x' norm Wx' HN) as (WR & VR & _).
  assert (EQ : val (dg a) * 2 ^ norm = val q * (val (dg b) * 2 ^ norm) + val (dg x')).
  { rewrite <- VX, <- VY, V, E1, V1. cbn [val].
    pose proof (Z.div_mod (mval X) (mval (shld Y (n - t))) ltac:(lia)) as DM.
    rewrite <- MX at 1. rewrite DM at 1. rewrite VS at 1. ring. }
  assert (DQ : val q = val (dg a) / val (dg b) /\ val (dg x') = (val (dg a) mod val (dg b)) * 2 ^ norm).
  { pose proof (val_nonneg _ (proj1 Wx')) as Px'. rewrite VY in LT.
    assert (Q1 : val q = (val (dg a) * 2 ^ norm) / (val (dg b) * 2 ^ norm)).
    { apply (Z.div_unique _ _ _ (val (dg x'))); [left; lia|lia]. }
    assert (Q2 : val (dg x') = (val (dg a) * 2 ^ norm) mod (val (dg b) * 2 ^ norm)).
    { apply (Z.mod_unique _ _ (val q)); [left; lia|lia]. }
    rewrite Z.div_mul_cancel_r in Q1 by lia. rewrite Z.mul_mod_distr_r in Q2 by lia. auto. }
  destruct DQ as [DQ DR]. cbn [neg dg].
  repeat split; auto.
  - apply adjust_digits; auto.
  - apply adjust_normal.
  - apply WR.
  - apply WR.
  - cbn [dg]. rewrite adjust_val. exact DQ.
  - cbn [dg]. rewrite VR, DR. apply Z.div_mul. lia.
Qed.

(** *** The signed entry points *)
Lemma div_abs_zero a b : wf b -> val (dg b) = 0 -> div_abs a b = Err (-1).
Proof. intros W E. unfold div_abs. rewrite is_zero_val, E by auto. reflexivity. Qed.

Lemma div_zero wr a b : wf b -> mval b = 0 -> div_gen wr a b = Err (-1).
Proof.
  intros W E. unfold div_gen. rewrite div_abs_zero; auto. unfold mval in E. destruct (neg b); lia.
Qed.

Lemma div_outcome a b : wf a -> wf b -> mval b <> 0 ->
  exists q r, div a b = Ok (q, r) /\ wf q /\ wf r /\ (canon a -> canon q /\ canon r) /\
    let A := Z.abs (mval a) in let D := Z.abs (mval b) in
    mval q = (if xorb (neg a) (neg b) then if A mod D =? 0 then A / D else - (A / D) - 1 else A / D) /\
    mval r = (if xorb (neg a) (neg b) then if A mod D =? 0 then 0 else D - A mod D
              else if A <? D then mval a else A mod D).
Proof.
  intros Wa Wb NZ. unfold div, div_gen. cbv zeta.
  rewrite !abs_mval by auto.
  pose proof (val_nonneg _ (proj1 Wa)) as Pa. pose proof (val_nonneg _ (proj1 Wb)) as Pb.
  assert (NZ' : val (dg b) <> 0) by (unfold mval in NZ; destruct (neg b); lia).
  destruct (div_abs_ok a b Wa Wb NZ') as (q & r & -> & Wq & Wr & Vq & Vr & Nq & Nr). cbn [bind].
  rewrite cmp_abs_spec in Nr by auto.
  pose proof (Z.mod_pos_bound (val (dg a)) (val (dg b)) ltac:(lia)) as MB.
  assert (Cq : canon q) by (apply wf_canon; auto).
  assert (Mq : mval q = val (dg a) / val (dg b)) by (unfold mval; rewrite Nq; auto).
  assert (Cr : canon a -> canon r).
  { intros [_ Ca]. split; auto. intro E. rewrite E in Vr. cbn [val] in Vr. rewrite Nr.
    destruct (Z.ltb_spec (Z.sgn (val (dg a) - val (dg b))) 0); auto. rewrite Z.mod_small in Vr by lia.
    apply Ca. apply normal_val_zero; [apply Wa|apply Wa|lia]. }
  destruct (xorb (neg a) (neg b)) eqn:X.
  - cbn [negb]. rewrite is_zero_val, Vr by auto. destruct (Z.eqb_spec (val (dg a) mod val (dg b)) 0) as [E|E].
    + exists q, r. split; [reflexivity|]. split; auto. split; auto. split; [auto|]. split; auto.
      unfold mval. rewrite Vr, E. destruct (neg r); reflexivity.
    + assert (Wq' : wf (set_sign true q)) by auto.
      destruct (sub_spec (set_sign true q) mone Wq' wf_mone) as (q' & E1 & Wq1 & Vq1 & Cq1). rewrite E1. cbn [bind].
      destruct (sub_abs_spec b r Wb Wr ltac:(lia)) as (r' & -> & Wr' & Nr' & Vr'). cbn [bind].
      assert (Q' : mval q' = - (val (dg a) / val (dg b)) - 1).
      { rewrite Vq1. unfold mval at 1. cbn [set_sign neg dg]. rewrite Vq. change (mval mone) with 1. ring. }
      exists q', r'. split; [reflexivity|]. split; auto. split; auto. split.
      * intros _. split; [|apply wf_canon; auto]. split; auto. intro E0.
        assert (0 <= val (dg a) / val (dg b)) by (apply Z.div_pos; lia).
        unfold mval in Q'. rewrite E0 in Q'. cbn [val] in Q'. destruct (neg q'); lia.
      * split; auto. unfold mval. rewrite Nr', Vr', Vr. reflexivity.
  - exists q, r. split; [reflexivity|]. split; auto. split; auto. split; [auto|]. split; auto.
    unfold mval. rewrite Nr, Vr.
    destruct (Z.ltb_spec (Z.sgn (val (dg a) - val (dg b))) 0), (Z.ltb_spec (val (dg a)) (val (dg b))); try lia.
    rewrite Z.mod_small by lia. reflexivity.
Qed.

(** Flooring facts. *)
Lemma floor_neg A D : 0 < D -> 0 <= A ->
  - A / D = (if A mod D =? 0 then - (A / D) else - (A / D) - 1) /\
  - A mod D = (if A mod D =? 0 then 0 else D - A mod D).
Proof.
  intros HD HA. destruct (Z.eqb_spec (A mod D) 0) as [E|E].
  - split; [apply Z.div_opp_l_z; lia|apply Z.mod_opp_l_z; lia].
  - split; [apply Z.div_opp_l_nz; lia|apply Z.mod_opp_l_nz; lia].
Qed.

Lemma neg_mval a : wf a -> (neg a = true -> mval a <= 0) /\ (neg a = false -> 0 <= mval a).
Proof. intro W. pose proof (val_nonneg _ (proj1 W)). unfold mval. destruct (neg a); split; intro; try discriminate; lia. Qed.

Lemma div_floor a b : canon a -> canon b -> 0 < mval b -> 0 <= mval a \/ mval a mod mval b <> 0 ->
  exists q r, div a b = Ok (q, r) /\ canon q /\ canon r /\ mval q = mval a / mval b /\ mval r = mval a mod mval b.
Proof.
  intros Ca Cb Hb H. destruct (div_outcome a b) as (q & r & E & Wq & Wr & C & Q & R); auto; [lia|].
  destruct (C Ca) as [Cq Cr]. exists q, r. split; auto. split; auto. split; auto.
  rewrite (canon_neg b Cb) in Q, R. destruct (Z.ltb_spec (mval b) 0); [lia|]. rewrite xorb_false_r in *.
  rewrite (canon_neg a Ca) in Q, R. destruct (Z.ltb_spec (mval a) 0) as [L|L].
  - pose proof (floor_neg (Z.abs (mval a)) (Z.abs (mval b)) ltac:(lia) ltac:(lia)) as [F1 F2].
    replace (- Z.abs (mval a)) with (mval a) in * by lia. rewrite (Z.abs_eq (mval b)) in * by lia.
    rewrite Q, R, F1, F2. destruct (Z.eqb_spec (Z.abs (mval a) mod mval b) 0); auto. rewrite F2 in H. lia.
  - rewrite !Z.abs_eq in * by lia. split; auto. rewrite R. destruct (Z.ltb_spec (mval a) (mval b)); auto.
    rewrite Z.mod_small by lia. reflexivity.
Qed.

Lemma mod_exact a m : wf a -> wf m -> 0 < mval m ->
  exists r, mod_ a m = Ok r /\ wf r /\ mval r = mval a mod mval m /\ (canon a -> canon r).
Proof.
  intros Wa Wm Hm. unfold mod_. destruct (div_outcome a m) as (q & r & E & Wq & Wr & C & Q & R); auto; [lia|].
  rewrite E. cbn [bind]. exists r. split; auto. split; auto. split; [|intro; apply C; auto].
  destruct (neg_mval m Wm) as [NM _]. destruct (neg m); [specialize (NM eq_refl); lia|].
  rewrite xorb_false_r in R. rewrite R. rewrite (Z.abs_eq (mval m)) in * by lia.
  destruct (neg_mval a Wa) as [NA NA']. destruct (neg a).
  - specialize (NA eq_refl). pose proof (floor_neg (Z.abs (mval a)) (mval m) ltac:(lia) ltac:(lia)) as [F1 F2].
    replace (- Z.abs (mval a)) with (mval a) in F2 by lia. auto.
  - specialize (NA' eq_refl). rewrite (Z.abs_eq (mval a)) by lia. destruct (Z.ltb_spec (mval a) (mval m)); auto.
    rewrite Z.mod_small by lia. reflexivity.
Qed.

Lemma mod_zero a m : wf m -> mval m = 0 -> mod_ a m = Err (-1).
Proof. intros. unfold mod_, div. rewrite div_zero; auto. Qed.

Lemma mod_ofZ a m : 0 < m -> mod_ (ofZ a) (ofZ m) = Ok (ofZ (a mod m)).
Proof.
  intro H. destruct (mod_exact (ofZ a) (ofZ m)) as (r & E & W & V & C); auto; [rewrite mval_ofZ; auto|].
  rewrite !mval_ofZ in V. rewrite E. f_equal. apply is_ofZ; auto.
Qed.

Lemma div_ofZ a b : 0 <= a -> 0 < b -> div (ofZ a) (ofZ b) = Ok (ofZ (a / b), ofZ (a mod b)).
Proof.
  intros Ha Hb. destruct (div_floor (ofZ a) (ofZ b)) as (q & r & E & Cq & Cr & Q & R); auto; rewrite ?mval_ofZ; auto.
  rewrite !mval_ofZ in *. rewrite E. rewrite (is_ofZ q _ Cq Q), (is_ofZ r _ Cr R). reflexivity.
Qed.

Lemma div_ofZ_nr a b : 0 <= a -> 0 < b -> exists r, div_gen false (ofZ a) (ofZ b) = Ok (ofZ (a / b), r).
Proof.
  intros Ha Hb. pose proof (div_ofZ a b Ha Hb) as H. unfold div, div_gen in *.
  destruct (div_abs (ofZ a) (ofZ b)) as [[q r]| | |]; cbn [bind] in *; try discriminate.
  rewrite !ofZ_neg in *. destruct (Z.ltb_spec a 0), (Z.ltb_spec b 0); try lia. cbn [xorb] in *.
  injection H as -> ->. eauto.
Qed.

Lemma div_abs_euclid a b : wf a -> wf b -> mval b <> 0 ->
  exists q r, div_abs a b = Ok (q, r) /\ wf q /\ wf r /\
    Z.abs (mval a) = Z.abs (mval q) * Z.abs (mval b) + Z.abs (mval r) /\
    Z.abs (mval r) < Z.abs (mval b) /\ 0 <= mval q /\
    (Z.abs (mval b) <= Z.abs (mval a) -> 0 <= mval r).
Proof.
  intros Wa Wb NZ. assert (NZ' : val (dg b) <> 0) by (unfold mval in NZ; destruct (neg b); lia).
  destruct (div_abs_ok a b Wa Wb NZ') as (q & r & E & Wq & Wr & Vq & Vr & Nq & Nr).
  exists q, r. split; auto. split; auto. split; auto.
  rewrite cmp_abs_spec in Nr by auto.
  assert (Mq : mval q = val (dg q)) by (unfold mval; rewrite Nq; auto). rewrite Mq.
  rewrite !abs_mval by auto. pose proof (val_nonneg _ (proj1 Wq)). pose proof (val_nonneg _ (proj1 Wr)).
  rewrite (Z.abs_eq (val (dg q))) by auto. pose proof (val_nonneg _ (proj1 Wb)).
  pose proof (Z.div_mod (val (dg a)) (val (dg b)) NZ'). pose proof (Z.mod_pos_bound (val (dg a)) (val (dg b)) ltac:(lia)).
  rewrite Vq, Vr. split; [lia|]. split; [lia|]. split; [lia|]. intro.
  destruct (Z.ltb_spec (Z.sgn (val (dg a) - val (dg b))) 0); [lia|]. unfold mval. rewrite Nr. lia.
Qed.

Lemma count_bits_mval a : wf a -> count_bits a = (if mval a =? 0 then 0 else Z.log2 (Z.abs (mval a)) + 1).
Proof.
  intro W. rewrite count_bits_ok, abs_mval by auto. unfold mval. destruct (neg a), (Z.eqb_spec (val (dg a)) 0); try reflexivity.
  - rewrite e. reflexivity.
  - destruct (Z.eqb_spec (- val (dg a)) 0); [lia|reflexivity].
Qed.

Lemma count_bits_ofZ z : count_bits (ofZ z) = if z =? 0 then 0 else Z.log2 (Z.abs z) + 1.
Proof. rewrite count_bits_mval by auto. rewrite mval_ofZ. reflexivity. Qed.
