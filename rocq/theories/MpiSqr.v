(** Correctness of the squaring routines. *)
From Verif Require Import Base Bits MpiModel MpiSpec MpiDigits MpiMulModel MpiMul MpiMul2.
Ltac Zify.zify_post_hook ::= Z.div_mod_to_equations.

Lemma sum_sym f n : (forall i, (i < n)%nat -> f (n - 1 - i)%nat = f i) ->
  sum f n = 2 * sum f (Nat.div2 n) + (if Nat.even n then 0 else f (Nat.div2 n)).
Proof.
  intro H. pose proof (Nat.div2_odd n) as D. set (h := Nat.div2 n) in *.
  assert (E : sum (fun i => f (n - 1 - i)%nat) h = sum f h).
  { apply sum_ext. intros i Hi. apply H. destruct (Nat.odd n); cbn in D; lia. }
  assert (R : forall k, sum (fun i => f (k + i)%nat) h = sum (fun i => f (k + h - 1 - i)%nat) h).
  { intro k. rewrite sum_rev. apply sum_ext. intros i Hi. f_equal. lia. }
  rewrite <- Nat.negb_odd. destruct (Nat.odd n) eqn:O; cbn [Nat.b2n negb] in *.
  - rewrite D at 1. replace (2 * h + 1)%nat with (h + (1 + h))%nat by lia. rewrite sum_split, (sum_split _ 1 h).
    cbn [sum]. rewrite Nat.add_0_r.
    assert (E2 : sum (fun i => f (h + (1 + i))%nat) h = sum f h).
    { transitivity (sum (fun i => f (h + 1 + i)%nat) h); [apply sum_ext; intros; f_equal; lia|].
      rewrite R, <- E. apply sum_ext. intros. f_equal. lia. }
    rewrite E2. ring.
  - rewrite D at 1. replace (2 * h + 0)%nat with (h + h)%nat by lia. rewrite sum_split.
    assert (E2 : sum (fun i => f (h + i)%nat) h = sum f h).
    { rewrite R, <- E. apply sum_ext. intros. f_equal. lia. }
    rewrite E2. ring.
Qed.

Lemma shl1_lor x y : 0 <= y < B -> Z.lor (Z.shiftl x 1) (Z.shiftr y 63) = 2 * x + y / 2 ^ 63.
Proof.
  intros Hy. rewrite Z.shiftl_mul_pow2, Z.shiftr_div_pow2 by lia.
  rewrite lor_shifted_small; [lia|lia|]. change (2 ^ 63) with 9223372036854775808. unfold B in *. change (2^1) with 2. lia.
Qed.

Lemma shl1_lor_mod x y : 0 <= x < B -> 0 <= y < B ->
  Z.lor (Z.shiftl x 1 mod B) (Z.shiftr y 63) = (2 * x) mod B + y / 2 ^ 63.
Proof.
  intros Hx Hy. rewrite Z.shiftl_mul_pow2, Z.shiftr_div_pow2 by lia.
  rewrite B_pow2, shl_mod by lia.
  rewrite lor_shifted_small; [|lia|].
  - rewrite <- (shl_mod x 1 64) by lia. change (2^1) with 2. rewrite (Z.mul_comm x 2). reflexivity.
  - change (2 ^ 63) with 9223372036854775808. unfold B in *. change (2^1) with 2. lia.
Qed.

Lemma dbl_add_ok c t : accok c -> accok t -> snd (fst t) < B ->
  accok (dbl_add c t) /\ accv (dbl_add c t) = accv c + 2 * accv t /\ 0 <= snd (fst (dbl_add c t)) < B.
Proof.
  destruct c as [[c0 c1] c2], t as [[t0 t1] t2]. cbn [accok fst snd]. intros (C0 & C1 & C2) (T0 & T1 & T2) T1'.
  unfold dbl_add. rewrite shl1_lor by lia. rewrite shl1_lor_mod by lia.
  replace (Z.shiftl t0 1) with (2 * t0) by (rewrite Z.shiftl_mul_pow2 by lia; lia).
  cbn [accok accv fst snd]. change (2 ^ 63) with 9223372036854775808. unfold B in *. lia.
Qed.

Lemma sqr_window a ix : a <> [] -> (ix < length a + length a)%nat ->
  let ty := Nat.min ix (length a - 1) in
  let tx := (ix - ty)%nat in
  let iy := Nat.min (Nat.min (length a - tx) (ty + 1)) (Nat.div2 (ty + 1 - tx)) in
  2 * sum (fun i => nth (tx + i) a 0 * nth (ty - i) a 0) iy +
    (if Nat.even ix then nth (Nat.div2 ix) a 0 * nth (Nat.div2 ix) a 0 else 0) = conv a a ix /\
  (iy = 0%nat -> Nat.even ix = false -> (S ix = length a + length a)%nat) /\ (iy <= S ty)%nat.
Proof.
  intros Na Hix ty tx iy.
  assert (0 < length a)%nat by (destruct a; [congruence|cbn; lia]).
  pose proof (window_conv a a ix Na Na) as W. cbv zeta in W. fold ty in W. fold tx in W.
  assert (En : Nat.min (length a - tx) (ty + 1) = (ty + 1 - tx)%nat) by (unfold tx, ty; lia).
  rewrite En in W.
  assert (Hs : (tx + ty = ix)%nat) by (unfold tx, ty; lia).
  assert (Ht : (tx <= ty + 1)%nat) by (unfold tx, ty; lia).
  set (n := (ty + 1 - tx)%nat) in *.
  pose proof (Nat.div2_odd n) as D.
  assert (Ei : iy = Nat.div2 n) by (unfold iy; rewrite En; destruct (Nat.odd n); cbn in D; lia).
  rewrite Ei.
  assert (Hpar : Nat.even n = negb (Nat.even ix)).
  { rewrite <- Hs. unfold n. rewrite Nat.even_sub by lia. rewrite !Nat.even_add. cbn.
    destruct (Nat.even ty), (Nat.even tx); reflexivity. }
  split; [|split].
  - rewrite <- W. rewrite (sum_sym (fun i => nth (tx + i) a 0 * nth (ty - i) a 0) n).
    + f_equal. rewrite Hpar. destruct (Nat.even ix) eqn:EI; cbn [negb]; [|reflexivity].
      rewrite <- Nat.negb_even, Hpar in D. cbn [negb Nat.b2n] in D.
      pose proof (Nat.div2_odd ix) as DI. rewrite <- Nat.negb_even, EI in DI. cbn [negb Nat.b2n] in DI.
      f_equal; f_equal; lia.
    + intros i Hi. rewrite Z.mul_comm. f_equal; f_equal; lia.
  - intros E0 EI. rewrite E0 in D. rewrite <- Nat.negb_even, Hpar, EI in D. cbn in D.
    unfold n, tx, ty in *. lia.
  - unfold n, tx, ty in *. destruct (Nat.odd _); cbn in D; lia.
Qed.

Lemma sqr_loop_len a k : forall ix c1 c2, length (sqr_loop a k ix c1 c2) = k.
Proof.
  induction k as [|k IH]; intros ix c1 c2; cbn [sqr_loop]; [reflexivity|].
  match goal with |- context [let '(_, _) := ?c in _] => destruct c as [[d0 d1] d2] end.
  cbn [length]. rewrite IH. reflexivity.
Qed.

Lemma sqr_loop_ok a : a <> [] -> digits a -> forall k ix c1 c2,
  (ix + k <= length a + length a)%nat -> 0 <= c1 < B -> 0 <= c2 ->
  digits (sqr_loop a k ix c1 c2) /\
  exists rest, 0 <= rest /\
  val (sqr_loop a k ix c1 c2) + B ^ Z.of_nat k * rest =
  c1 + B * c2 + sum (fun j => conv a a (ix + j) * B ^ Z.of_nat j) k.
Proof.
  intros Na Ha. induction k as [|k IH]; intros ix c1 c2 Hk H1 H2; cbn [sqr_loop].
  - split; auto. exists (c1 + B * c2). cbn [val sum]. change (Z.of_nat 0) with 0. rewrite Z.pow_0_r.
    split; [unfold B; lia|lia].
  - destruct (sqr_window a ix Na ltac:(lia)) as (WC & WZ & WL). cbv zeta in WC, WZ, WL.
    set (ty := Nat.min ix (length a - 1)) in *. set (tx := (ix - ty)%nat) in *.
    set (iy := Nat.min (Nat.min (length a - tx) (ty + 1)) (Nat.div2 (ty + 1 - tx))) in *.
    set (C := if Nat.eqb iy 0 then (c1, c2, 0) else dbl_add (c1, c2, 0) (comba_col muladd a a tx ty iy (0, 0, 0))).
    assert (HC : accok C /\ accv C = c1 + B * c2 + 2 * sum (fun i => nth (tx + i) a 0 * nth (ty - i) a 0) iy /\
                 (iy <> 0%nat -> 0 <= snd (fst C) < B)).
    { unfold C. destruct (Nat.eqb_spec iy 0) as [E|E].
      - rewrite E. cbn [accok accv sum]. repeat split; try lia.
      - destruct (comba_col_ok a a iy tx ty (0, 0, 0) Ha Ha) as [O1 O2]; [cbn; lia|auto|].
        pose proof (comba_col_c1 a a iy tx ty (0, 0, 0) ltac:(lia)) as C1.
        destruct (dbl_add_ok (c1, c2, 0) (comba_col muladd a a tx ty iy (0, 0, 0))) as (D1 & D2 & D3);
          [cbn; lia|auto|lia|].
        split; auto. rewrite D2, O2. cbn [accv]. split; [lia|auto]. }
    clearbody C. destruct HC as (C1 & C2 & C3).
    set (D := if Nat.even ix then muladd C (nth (Nat.div2 ix) a 0) (nth (Nat.div2 ix) a 0) else C).
    assert (HD : accok D /\ accv D = c1 + B * c2 + conv a a ix /\
                 ((S ix < length a + length a)%nat -> 0 <= snd (fst D) < B)).
    { unfold D. rewrite <- WC. destruct (Nat.even ix).
      - destruct (muladd_ok C (nth (Nat.div2 ix) a 0) (nth (Nat.div2 ix) a 0) C1 (nth_digit _ _ Ha) (nth_digit _ _ Ha)) as [M1 M2].
        split; auto. split; [lia|]. intros _. apply muladd_c1.
      - split; auto. split; [lia|]. intro. apply C3. intro. specialize (WZ H0 eq_refl). lia. }
    clearbody D. destruct D as [[d0 d1] d2]. cbn [accok accv fst snd] in HD.
    destruct HD as ((P0 & P1 & P2) & V & HB).
    rewrite sum_S_l. rewrite Nat.add_0_r. change (Z.of_nat 0) with 0. rewrite Z.pow_0_r, Z.mul_1_r.
    assert (ES : sum (fun i => conv a a (ix + S i) * B ^ Z.of_nat (S i)) k =
                 B * sum (fun j => conv a a (S ix + j) * B ^ Z.of_nat j) k).
    { rewrite <- sum_mul. apply sum_ext. intros i _.
      rewrite Nat2Z.inj_succ, Z.pow_succ_r by lia. rewrite Nat.add_succ_r, Nat.add_succ_l. ring. }
    rewrite ES. rewrite Nat2Z.inj_succ, Z.pow_succ_r by lia.
    destruct k as [|k].
    + cbn [sqr_loop val sum]. split; [apply digits_cons; auto|].
      exists (d1 + B * d2). change (Z.of_nat 0) with 0. rewrite Z.pow_0_r. 
      split; [unfold B; lia|]. lia.
    + specialize (HB ltac:(lia)).
      destruct (IH (S ix) d1 d2 ltac:(lia) HB P2) as (I1 & rest & I2 & I3).
      split; [apply digits_cons; auto|]. exists rest. split; auto.
      cbn [val].
      replace (d0 + B * val (sqr_loop a (S k) (S ix) d1 d2) + B * B ^ Z.of_nat (S k) * rest)
        with (d0 + B * (val (sqr_loop a (S k) (S ix) d1 d2) + B ^ Z.of_nat (S k) * rest)) by ring.
      rewrite I3. lia.
Qed.

Lemma sqr_comba_ok rs a : digits (dg a) ->
  wf (sqr_comba rs a) /\ val (dg (sqr_comba rs a)) = val (dg a) * val (dg a) /\
  (neg (sqr_comba rs a) = rs \/ sqr_comba rs a = mzero).
Proof.
  intros Ha. unfold sqr_comba, is_zero.
  destruct (dg a) as [|x l] eqn:Ea; [split; [auto|split; [reflexivity|auto]]|].
  cbn [dg neg]. unfold used. rewrite Ea.
  assert (Na : x :: l <> []) by discriminate.
  destruct (sqr_loop_ok (x :: l) Na Ha (length (x :: l) + length (x :: l)) 0 0 0) as (D & rest & R & E); try lia.
  { pose proof B_pos; lia. }
  assert (ET : 0 + B * 0 + sum (fun j => conv (x :: l) (x :: l) (0 + j) * B ^ Z.of_nat j) (length (x :: l) + length (x :: l)) = val (x :: l) * val (x :: l)).
  { rewrite <- (conv_val (x :: l) (x :: l) _ (Nat.le_refl _)). cbn [Nat.add]. lia. }
  rewrite ET in E. clear ET.
  set (L := sqr_loop (x :: l) (length (x :: l) + length (x :: l)) 0 0 0) in *.
  split; [split; cbn [dg]; auto|]. split; [|auto]. rewrite adjust_val.
  pose proof (val_mul_lt (x :: l) (x :: l) Ha Ha) as HL. pose proof (val_nonneg _ D) as V0. pose proof (val_lt _ D) as V1.
  unfold L in V1 at 2. rewrite sqr_loop_len in V1.
  apply (val_exact _ _ rest _ (conj V0 V1) R E HL).
Qed.

Lemma sqr_f_ok fuel : forall rs a, wf a -> (used a < fuel)%nat ->
  exists r, sqr_f fuel rs a = Ok r /\ wf r /\ val (dg r) = val (dg a) * val (dg a) /\
    (rs = false -> mval r = val (dg a) * val (dg a)) /\ (neg r = rs \/ mval r = val (dg r)) /\
    ((used a <= 64)%nat -> r = mzero \/ neg r = rs) /\
    ((64 < used a)%nat -> mval r = val (dg a) * val (dg a)).
Proof.
  induction fuel as [|f IH]; intros rs a Wa Hf; [lia|]. cbn [sqr_f].
  destruct (Nat.ltb_spec 64 (used a)) as [L|L].
  2:{ destruct (sqr_comba_ok rs a (proj1 Wa)) as (W & V & N).
      eexists. split; [reflexivity|]. split; auto. split; auto. split; [|split; [|split; [tauto|lia]]].
      - intros ->. rewrite <- V. unfold mval. destruct N as [-> | ->]; reflexivity.
      - destruct N as [N| ->]; auto. }
  unfold sqr_karatsuba.
  assert (is_zero a = false) as ->. { unfold is_zero, used in *. destruct (dg a); [cbn in L; lia|reflexivity]. }
  set (h := Nat.div2 (used a)).
  pose proof (Nat.div2_odd (used a)) as DO. fold h in DO.
  assert (Hh : (2 * h <= used a <= 2 * h + 1)%nat) by (destruct (Nat.odd (used a)); cbn in DO; lia).
  clear DO. clearbody h.
  assert (Va : val (dg a) = val (firstn h (dg a)) + B ^ Z.of_nat h * val (skipn h (dg a))) by (apply val_firstn_skipn; unfold used in *; lia).
  destruct (split_lt h (dg a) (proj1 Wa) ltac:(unfold used in *; lia)) as [La1 La0].
  pose proof (used_adj_firstn h a false) as Ua0.
  assert (Ua1 : used (mkmpi false (skipn h (dg a))) = (used a - h)%nat) by (unfold used; cbn [dg]; apply skipn_length).
  assert (Wx0 : wf (mkmpi false (adjust (firstn h (dg a))))) by (apply wf_adj, digits_firstn, Wa).
  assert (Wx1 : wf (mkmpi false (skipn h (dg a)))) by (apply wf_skipn; auto).
  set (x0 := mkmpi false (adjust (firstn h (dg a)))) in *.
  set (x1 := mkmpi false (skipn h (dg a))) in *.
  assert (Mx0 : val (dg x0) = val (firstn h (dg a))) by (unfold x0; cbn [dg]; apply adjust_val).
  assert (Mx1 : val (dg x1) = val (skipn h (dg a))) by reflexivity.
  destruct (IH false x0 Wx0 ltac:(lia)) as (z0 & -> & Wz0 & _ & Mz0 & _). cbn [bind]. specialize (Mz0 eq_refl).
  destruct (IH false x1 Wx1 ltac:(lia)) as (z2 & -> & Wz2 & _ & Mz2 & _). cbn [bind]. specialize (Mz2 eq_refl).
  destruct (add_abs_spec x1 x0 Wx1 Wx0) as (Wsx & Vsx & Nsx).
  replace (add x1 x0) with (Ok (set_sign false (add_abs x1 x0))) by reflexivity.
  cbn [bind]. set (sx := set_sign false (add_abs x1 x0)).
  assert (Wsx' : wf sx) by exact Wsx.
  assert (Usx : (used sx <= used a - h + 1)%nat).
  { apply used_le; auto. unfold sx. cbn [set_sign dg]. rewrite Vsx, Mx0, Mx1.
    unfold used. rewrite Nat2Z.inj_add. apply (add_lt_pow _ _ _ La1 La0). }
  destruct (IH false sx Wsx' ltac:(lia)) as (z1 & -> & Wz1 & _ & Mz1 & _). cbn [bind]. specialize (Mz1 eq_refl).
  unfold sx in Mz1. cbn [set_sign dg] in Mz1. rewrite Vsx in Mz1.
  clear Wsx Vsx Nsx Usx Wsx' sx.
  destruct (add_spec z0 z2 Wz0 Wz2) as (t & -> & Wt & Mt & _). cbn [bind].
  destruct (sub_spec z1 t Wz1 Wt) as (u & -> & Wu & Mu & _). cbn [bind].
  destruct (shld_mval u h Wu) as (Wu' & Mu').
  destruct (shld_mval z2 (2 * h) Wz2) as (Wz2' & Mz2').
  destruct (add_spec z0 (shld u h) Wz0 Wu') as (v & -> & Wv & Mv & _). cbn [bind].
  destruct (add_spec v (shld z2 (2 * h)) Wv Wz2') as (r & Er & Wr & Mr & _).
  change (h + (h + 0))%nat with (2 * h)%nat. rewrite Er.
  assert (MR : mval r = val (dg a) * val (dg a)).
  { rewrite Mr, Mv, Mz2', Mu', Mu, Mt, Mz1, Mz0, Mz2, Va, !Mx0, !Mx1.
    replace (Z.of_nat (2 * h)) with (Z.of_nat h + Z.of_nat h) by lia. rewrite Z.pow_add_r by lia. ring. }
  assert (VR : val (dg r) = val (dg a) * val (dg a)).
  { rewrite <- abs_mval by auto. rewrite MR. apply Z.abs_eq. apply Z.mul_nonneg_nonneg; apply val_nonneg; apply Wa. }
  exists r. split; [reflexivity|]. split; auto. split; auto. split; auto. split; [|split; [lia|auto]]. right. congruence.
Qed.

Lemma sqr_spec rs a : wf a ->
  exists r, sqr rs a = Ok r /\ wf r /\ val (dg r) = mval a * mval a /\ (rs = false -> mval r = mval a * mval a).
Proof.
  intro W. destruct (sqr_f_ok (S (used a)) rs a W ltac:(lia)) as (r & E & Wr & V & M & _ & _).
  assert (Q : mval a * mval a = val (dg a) * val (dg a)) by (unfold mval; destruct (neg a); ring).
  exists r. rewrite Q. auto.
Qed.

(** The result is negative exactly when the stale destination sign survives. *)
Lemma sqr_small rs a : wf a -> (0 < used a <= 64)%nat ->
  exists r, sqr rs a = Ok r /\ mval r = if rs then - (mval a * mval a) else mval a * mval a.
Proof.
  intros W U. destruct (sqr_f_ok (S (used a)) rs a W ltac:(lia)) as (r & E & Wr & V & _ & _ & S & _).
  assert (Q : mval a * mval a = val (dg a) * val (dg a)) by (unfold mval; destruct (neg a); ring).
  exists r. split; auto. rewrite Q, <- V. unfold mval. destruct (S ltac:(lia)) as [-> | ->]; [|reflexivity].
  cbn. destruct rs; reflexivity.
Qed.

(** *** Baseline squaring *)
Lemma sqb_prop_ok : forall n t c, digits t -> length t = n -> 0 <= c -> val t + c < B ^ Z.of_nat n ->
  exists r, sqb_prop t n c = Some r /\ digits r /\ length r = n /\ val r = val t + c.
Proof.
  induction n as [|n IH]; intros t c Ht HL Hc Hv; destruct t as [|d t]; cbn [length] in HL; try lia; cbn [sqb_prop].
  - change (Z.of_nat 0) with 0 in Hv. rewrite Z.pow_0_r in Hv. cbn [val] in *.
    destruct (Z.eqb_spec c 0); [|lia]. subst. exists []. repeat split; auto.
  - apply digits_cons in Ht as [Hd Ht]. destruct (Z.eqb_spec c 0) as [->|E].
    + exists (d :: t). split; [reflexivity|]. split; [apply digits_cons; auto|]. split; [cbn; lia|lia].
    + cbn [val] in *. rewrite Nat2Z.inj_succ, Z.pow_succ_r in Hv by lia.
      destruct (IH t ((d + c) / B) Ht ltac:(lia)) as (r & -> & Dr & Lr & Vr).
      * apply Z.div_pos; [lia|auto].
      * assert ((val t + (d + c) / B) * B < B ^ Z.of_nat n * B).
        { pose proof (Z.div_mod (d + c) B ltac:(discriminate)). pose proof (Z.mod_pos_bound (d + c) B B_pos). lia. }
        apply Z.mul_lt_mono_pos_r in H; auto.
      * eexists. split; [reflexivity|]. repeat split.
        { apply digits_cons; split; auto. apply Z.mod_pos_bound; auto. }
        { cbn; lia. }
        { cbn [val]. rewrite Vr. pose proof (Z.div_mod (d + c) B ltac:(discriminate)). lia. }
Qed.

Lemma land_top dd : 0 <= dd < B * B ->
  Z.shiftr (Z.land dd (Z.shiftl 1 127)) 63 = if B * B / 2 <=? dd then B else 0.
Proof.
  intro H. rewrite Z.shiftr_div_pow2 by lia. rewrite Z.shiftl_1_l.
  assert (E : Z.land dd (2 ^ 127) = if B * B / 2 <=? dd then 2 ^ 127 else 0).
  { apply Z.bits_inj'. intros n Hn. rewrite Z.land_spec, Z.pow2_bits_eqb by lia.
    destruct (Z.eqb_spec 127 n) as [<-|N].
    - rewrite andb_true_r. rewrite Z.testbit_odd, Z.shiftr_div_pow2 by lia.
      destruct (Z.leb_spec (B * B / 2) dd) as [L|L].
      + rewrite Z.pow2_bits_true by lia. unfold B in *. change (2 ^ 127) with 170141183460469231731687303715884105728.
        replace (dd / _) with 1 by lia. reflexivity.
      + rewrite Z.bits_0. assert (dd / 2 ^ 127 = 0) as ->; [|reflexivity].
        apply Z.div_small. unfold B in *. change (2 ^ 127) with 170141183460469231731687303715884105728. lia.
    - rewrite andb_false_r. destruct (_ <=? _); [rewrite Z.pow2_bits_false by lia; reflexivity|rewrite Z.bits_0; reflexivity]. }
  rewrite E. destruct (_ <=? _); reflexivity.
Qed.

Lemma sqb_step x y d c : 0 <= x < B -> 0 <= y < B -> 0 <= d < B -> 0 <= c < 2 * B ->
  let dd := x * y in
  let ch := Z.shiftr (Z.land dd (Z.shiftl 1 127)) 63 in
  let dd1 := Z.shiftl dd 1 mod (B * B) in
  let dd2 := (dd1 + (d + c)) mod (B * B) in
  let ch := if ((ch =? 0) && (dd2 <? d + c))%bool then B else ch in
  let c' := Z.lor ch (dd2 / B) in
  0 <= c' < 2 * B /\ 0 <= dd2 mod B < B /\ dd2 mod B + B * c' = d + 2 * x * y + c.
Proof.
  intros Hx Hy Hd Hc dd ch dd1 dd2 ch' c'.
  assert (HD : 0 <= dd <= (B - 1) * (B - 1)).
  { unfold dd. split; [apply Z.mul_nonneg_nonneg; lia|]. apply Z.mul_le_mono_nonneg; lia. }
  assert (HDB : (B - 1) * (B - 1) < B * B) by (unfold B; lia).
  replace (d + 2 * x * y + c) with (d + 2 * dd + c) by (unfold dd; ring).
  assert (Hch : ch = if B * B / 2 <=? dd then B else 0) by (apply land_top; lia).
  assert (H1 : dd1 = (2 * dd) mod (B * B)) by (unfold dd1; rewrite Z.shiftl_mul_pow2 by lia; f_equal; lia).
  clearbody dd ch dd1.
  assert (Hd2 : 0 <= dd2 < B * B) by (unfold dd2; apply Z.mod_pos_bound; unfold B; lia).
  assert (Hch' : (ch' = 0 /\ dd2 = d + 2 * dd + c) \/ (ch' = B /\ dd2 + B * B = d + 2 * dd + c)).
  { unfold ch', dd2. rewrite Hch, H1. clear -HD Hd Hc.
    destruct (Z.leb_spec (B * B / 2) dd).
    - right. change (B =? 0) with false. cbn [andb]. split; [reflexivity|]. unfold B in *. lia.
    - cbn [Z.eqb andb].
      assert ((2 * dd) mod (B * B) = 2 * dd) as -> by (unfold B in *; lia).
      destruct (Z.ltb_spec ((2 * dd + (d + c)) mod (B * B)) (d + c)).
      + right. split; auto. unfold B in *. lia.
      + left. split; auto. unfold B in *. lia. }
  assert (Hc' : c' = ch' + dd2 / B).
  { unfold c'. assert (0 <= dd2 / B < B) by (split; [apply Z.div_pos; [lia|auto]|apply Z.div_lt_upper_bound; [auto|lia]]).
    destruct Hch' as [[-> _] | [-> _]]; [reflexivity|].
    change B with (1 * 2 ^ 64) at 1. rewrite lor_shifted_small by (unfold B in *; lia). reflexivity. }
  rewrite Hc'. clear Hc' c'. clearbody ch'. clear Hch H1. clearbody dd2.
  destruct Hch' as [[-> E] | [-> E]]; unfold B in *; lia.
Qed.

Lemma sqb_row_ok x : 0 <= x < B -> forall a t c, digits a -> digits t -> 0 <= c < 2 * B ->
  (length a <= length t)%nat -> val t + 2 * x * val a + c < B ^ Z.of_nat (length t) ->
  exists r, sqb_row x a t c = Some r /\ digits r /\ length r = length t /\ val r = val t + 2 * x * val a + c.
Proof.
  intro Hx. induction a as [|y a IH]; intros t c Ha Ht Hc HL Hv.
  - cbn [sqb_row val] in *. destruct (sqb_prop_ok (length t) t c Ht eq_refl ltac:(lia) ltac:(lia)) as (r & E & D & L & V).
    exists r. repeat split; auto. lia.
  - destruct t as [|d t]; cbn [length] in HL; [lia|]. apply digits_cons in Ha as [Hy Ha]. apply digits_cons in Ht as [Hd Ht].
    cbn [sqb_row val length] in *. rewrite Nat2Z.inj_succ, Z.pow_succ_r in Hv by lia.
    destruct (sqb_step x y d c Hx Hy Hd Hc) as (S1 & S2 & S3). cbv zeta in S1, S2, S3.
    set (dd2 := (Z.shiftl (x * y) 1 mod (B * B) + (d + c)) mod (B * B)) in *.
    set (c' := Z.lor _ (dd2 / B)) in *. clearbody c'. clearbody dd2.
    destruct (IH t c' Ha Ht S1 ltac:(lia)) as (r & -> & D & L & V).
    + assert ((val t + 2 * x * val a + c') * B < B ^ Z.of_nat (length t) * B); [|apply Z.mul_lt_mono_pos_r in H; auto].
      replace ((val t + 2 * x * val a + c') * B) with (B * val t + 2 * x * (B * val a) + B * c') by ring.
      replace (d + B * val t + 2 * x * (y + B * val a) + c) with (B * val t + 2 * x * (B * val a) + (d + 2 * x * y + c)) in Hv by ring.
      rewrite <- S3 in Hv. rewrite (Z.mul_comm _ B). lia.
    + eexists. split; [reflexivity|]. repeat split.
      * apply digits_cons; auto.
      * cbn; lia.
      * cbn [val]. rewrite V.
        replace (d + B * val t + 2 * x * (y + B * val a) + c) with (B * val t + 2 * x * (B * val a) + (d + 2 * x * y + c)) by ring.
        rewrite <- S3. ring.
Qed.

Lemma sqb_rows_ok : forall a t, digits a -> digits t -> length t = (2 * length a + 1)%nat ->
  val t + val a * val a < B ^ Z.of_nat (length t) ->
  exists r, sqb_rows a t = Some r /\ digits r /\ val r = val t + val a * val a.
Proof.
  induction a as [|x a IH]; intros t Ha Ht HL Hv.
  - cbn [sqb_rows val]. exists t. repeat split; auto. lia.
  - apply digits_cons in Ha as [Hx Ha]. cbn [length] in HL. destruct t as [|d t]; cbn [length] in HL; [lia|].
    apply digits_cons in Ht as [Hd Ht]. cbn [sqb_rows val length] in *.
    rewrite Nat2Z.inj_succ, Z.pow_succ_r in Hv by lia.
    assert (HD : 0 <= d + x * x < B * B).
    { assert (0 <= x * x <= (B - 1) * (B - 1)) by (split; [apply Z.mul_nonneg_nonneg; lia|apply Z.mul_le_mono_nonneg; lia]).
      unfold B in *; lia. }
    pose proof (Z.div_mod (d + x * x) B ltac:(discriminate)) as DM.
    pose proof (Z.mod_pos_bound (d + x * x) B B_pos) as MB.
    set (m := (d + x * x) mod B) in *. set (q := (d + x * x) / B) in *.
    assert (Hq : 0 <= q < 2 * B).
    { unfold q. split; [apply Z.div_pos; [lia|auto]|]. apply Z.lt_trans with B; [apply Z.div_lt_upper_bound; [auto|lia]|pose proof B_pos; lia]. }
    pose proof (val_nonneg _ Ha) as Pa. pose proof (val_nonneg _ Ht) as Pt.
    assert (EQ : d + B * val t + (x + B * val a) * (x + B * val a) = m + B * (val t + 2 * x * val a + q) + B * B * (val a * val a)).
    { replace (d + B * val t + (x + B * val a) * (x + B * val a)) with ((d + x * x) + B * (val t + 2 * x * val a) + B * B * (val a * val a)) by ring.
      rewrite DM. ring. }
    rewrite EQ in *.
    assert (HB2 : 0 <= B * B * (val a * val a)) by (apply Z.mul_nonneg_nonneg; [unfold B; lia|apply Z.mul_nonneg_nonneg; lia]).
    destruct (sqb_row_ok x Hx a t q Ha Ht Hq ltac:(lia)) as (r & -> & Dr & Lr & Vr).
    { assert ((val t + 2 * x * val a + q) * B < B ^ Z.of_nat (length t) * B); [|apply Z.mul_lt_mono_pos_r in H; auto]. lia. }
    destruct r as [|d1 r]; cbn [length] in Lr; [lia|]. apply digits_cons in Dr as [Hd1 Dr]. cbn [val] in Vr.
    destruct (IH r Ha Dr ltac:(lia)) as (r' & -> & Dr' & Vr').
    + replace (Z.of_nat (length t)) with (Z.succ (Z.of_nat (length r))) in Hv by lia.
      rewrite Z.pow_succ_r in Hv by lia. rewrite <- Vr in Hv.
      set (P := B ^ Z.of_nat (length r)) in *. set (S := val a * val a) in *. clearbody P S.
      assert ((val r + S) * (B * B) < P * (B * B)); [|apply Z.mul_lt_mono_pos_r in H; [auto|unfold B; lia]].
      replace (P * (B * B)) with (B * (B * P)) by ring. apply Z.le_lt_trans with (2 := Hv).
      pose proof B_pos. nia.
    + eexists. split; [reflexivity|]. split.
      * apply digits_cons; split; auto. apply digits_cons; auto.
      * cbn [val]. rewrite Vr', <- Vr. ring.
Qed.

Lemma sqr_baseline_ok a : wf a ->
  exists r, sqr_baseline a = Ok r /\ wf r /\ mval r = mval a * mval a.
Proof.
  intro W. unfold sqr_baseline. rewrite is_zero_val by auto.
  assert (Q : mval a * mval a = val (dg a) * val (dg a)) by (unfold mval; destruct (neg a); ring).
  rewrite Q. destruct (Z.eqb_spec (val (dg a)) 0) as [E|E].
  { exists mzero. rewrite E. repeat split; auto. }
  destruct (sqb_rows_ok (dg a) (repeat 0 (2 * used a + 1)) (proj1 W) (digits_repeat0 _)) as (r & -> & D & V).
  - rewrite repeat_length. reflexivity.
  - rewrite val_repeat0, repeat_length. apply Z.le_lt_trans with (val (dg a) * val (dg a)); [lia|].
    apply Z.lt_le_trans with (1 := val_mul_lt _ _ (proj1 W) (proj1 W)).
    apply Z.pow_le_mono_r; [auto|unfold used; lia].
  - eexists. split; [reflexivity|]. split; [apply wf_adj; auto|].
    unfold mval. cbn [neg dg]. rewrite adjust_val, V, val_repeat0. ring.
Qed.
