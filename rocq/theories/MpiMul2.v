(** Correctness of Toom-3, of the multiplication dispatcher and of squaring. *)
From Verif Require Import Base Bits MpiModel MpiSpec MpiDigits MpiMulModel MpiMul.
Ltac Zify.zify_post_hook ::= Z.div_mod_to_equations.

(** *** Sign and value *)
Definition sg (a : mpi) : Z := if neg a then -1 else 1.
Lemma mval_sg a : mval a = sg a * val (dg a).
Proof. unfold mval, sg. destruct (neg a); ring. Qed.

Lemma nth_land_mod l n e : digits l -> 0 <= e < 64 ->
  val [Z.land (nth n l 0) (Z.shiftl 1 e - 1)] = nth n l 0 mod 2 ^ e.
Proof. intros Hl He. cbn [val]. rewrite land_mask by lia. lia. Qed.

Lemma nth_split_val l n : (n < length l)%nat ->
  val l = val (firstn n l) + B ^ Z.of_nat n * (nth n l 0 + B * val (skipn (S n) l)).
Proof.
  intro H. rewrite (val_firstn_skipn n l) by lia. f_equal. f_equal.
  revert n H. induction l as [|d l IH]; intros [|n] H; cbn [length] in H; try lia; [reflexivity|].
  cbn [skipn nth]. rewrite IH by lia. reflexivity.
Qed.

Lemma mod_2e_ok a e : wf a -> 0 <= e ->
  wf (mod_2e a e) /\ mval (mod_2e a e) = sg a * (val (dg a) mod 2 ^ e).
Proof.
  intros W He. unfold mod_2e. destruct (Z.eqb_spec e 0) as [->|N].
  { split; auto. rewrite Z.pow_0_r, Z.mod_1_r. unfold mval; cbn. ring. }
  unfold used. destruct (Z.leb_spec (64 * Z.of_nat (length (dg a))) e) as [L|L].
  { split; auto. rewrite mval_sg. f_equal. symmetry. apply Z.mod_small.
    split; [apply val_nonneg, W|]. pose proof (val_lt _ (proj1 W)) as V. rewrite Bn_pow2 in V.
    apply Z.lt_le_trans with (1 := V). apply Z.pow_le_mono_r; lia. }
  set (n := Z.to_nat (e / 64)).
  assert (Hn : (n < length (dg a))%nat) by (unfold n; lia).
  assert (He' : e = 64 * Z.of_nat n + e mod 64) by (unfold n; lia).
  assert (Hm : 0 <= e mod 64 < 64) by lia.
  set (f := e mod 64) in *. clearbody n f.
  pose proof (nth_digit (dg a) n (proj1 W)) as Hd.
  pose proof (pow2_pos f ltac:(lia)) as Pf.
  assert (Hland : 0 <= Z.land (nth n (dg a) 0) (Z.shiftl 1 f - 1) < B).
  { rewrite land_mask by lia. pose proof (Z.mod_pos_bound (nth n (dg a) 0) (2 ^ f) Pf).
    assert (2 ^ f < B) by (rewrite B_pow2; apply Z.pow_lt_mono_r; lia). lia. }
  split.
  - apply wf_adj. apply digits_app; split; [apply digits_firstn, W|]. apply digits_cons; auto.
  - rewrite mval_sg. unfold sg at 1. cbn [neg dg]. fold (sg a). f_equal.
    rewrite adjust_val, val_app. cbn [val]. rewrite val_repeat0, firstn_length_le by lia.
    rewrite land_mask by lia.
    rewrite (nth_split_val (dg a) n Hn). rewrite He'. rewrite Z.pow_add_r by lia.
    rewrite <- Bn_pow2. set (P := B ^ Z.of_nat n).
    assert (HP : 0 < P) by (apply Z.pow_pos_nonneg; [auto|lia]).
    set (d := nth n (dg a) 0) in *. set (h := val (skipn (S n) (dg a))).
    pose proof (val_nonneg _ (digits_firstn n _ (proj1 W))) as F0.
    pose proof (val_lt _ (digits_firstn n _ (proj1 W))) as F1. rewrite firstn_length_le in F1 by lia. fold P in F1.
    set (v := val (firstn n (dg a))) in *.
    pose proof (Z.mod_pos_bound d (2 ^ f) Pf) as Md.
    pose proof (Z.div_mod d (2 ^ f) ltac:(lia)) as Dd.
    assert (PB : B = 2 ^ (64 - f) * 2 ^ f) by (rewrite B_pow2, (pow2_split 64 f) by lia; ring).
    apply Z.mod_unique_pos with (q := d / 2 ^ f + 2 ^ (64 - f) * h).
    + split; [nia|]. assert (P * (d mod 2 ^ f + 1) <= P * 2 ^ f) by (apply Z.mul_le_mono_nonneg_l; lia). lia.
    + rewrite PB. rewrite Dd at 1. ring.
Qed.

(** *** Exact division by three *)
Lemma div3_fix_ok n : forall t w, 0 <= w < 3 * (Z.of_nat n + 1) -> 
  exists t' w', div3_fix n t w = Some (t', w') /\ 3 * t' + w' = 3 * t + w /\ 0 <= w' < 3.
Proof.
  induction n as [|n IH]; intros t w H; cbn [div3_fix]; destruct (Z.leb_spec 3 w).
  - lia.
  - exists t, w. repeat split; lia.
  - destruct (IH (t + 1) (w - 3) ltac:(lia)) as (t' & w' & E & H1 & H2). exists t', w'. repeat split; auto; lia.
  - exists t, w. repeat split; lia.
Qed.

Lemma div3_loop_ok l : digits l ->
  exists q w, div3_loop l = Some (q, w) /\ digits q /\ val l = 3 * val q + w /\ 0 <= w < 3.
Proof.
  induction l as [|d l IH]; intro Hl; cbn [div3_loop].
  - exists [], 0. cbn. repeat split; auto; lia.
  - apply digits_cons in Hl as [Hd Hl]. destruct (IH Hl) as (q & w & -> & Dq & V & Hw).
    rewrite Z.shiftl_mul_pow2 by lia. rewrite lor_shifted_small by (unfold B in *; lia).
    set (W := w * 2 ^ 64 + d). assert (HW : W = w * B + d) by reflexivity.
    assert (HWb : 0 <= W < 3 * B) by (rewrite HW; unfold B in *; lia).
    destruct (Z.leb_spec 3 W) as [L|L].
    + set (t := Z.shiftr (W * (B / 3)) 64).
      assert (Ht : t = W * 6148914691236517205 / B) by (unfold t; rewrite Z.shiftr_div_pow2 by lia; reflexivity).
      assert (Hr : 0 <= W - (t + t + t) < 3 * (Z.of_nat 4 + 1)).
      { change (Z.of_nat 4) with 4. clear -Ht HWb. unfold B in *. lia. }
      destruct (div3_fix_ok 4 t (W - (t + t + t)) Hr) as (t' & w' & -> & E1 & E2).
      exists (t' mod B :: q), w'. assert (0 <= t' < B) by lia.
      rewrite Z.mod_small by auto. repeat split; try lia.
      * apply digits_cons; auto.
      * cbn [val]. rewrite V. lia.
    + exists (0 :: q), W. repeat split; try lia.
      * apply digits_cons; split; auto; pose proof B_pos; lia.
      * cbn [val]. rewrite V. lia.
Qed.

Lemma div3_ok a k : wf a -> mval a = 3 * k -> exists r, div3 a = Ok r /\ wf r /\ mval r = k.
Proof.
  intros W H. unfold div3. destruct (div3_loop_ok (dg a) (proj1 W)) as (q & w & -> & Dq & V & Hw).
  eexists. split; [reflexivity|]. split; [apply wf_adj; auto|].
  unfold mval in *. cbn [neg dg]. rewrite adjust_val. destruct (neg a); lia.
Qed.

Lemma shr1_ok a k : wf a -> mval a = 2 * k -> wf (shr a 1) /\ mval (shr a 1) = k.
Proof.
  intros W H. destruct (shr_spec a 1 W ltac:(lia)) as (W' & V & N). split; auto.
  rewrite Z.pow_1_r in V. pose proof (val_nonneg _ (proj1 W)).
  unfold mval in *. destruct N as [-> | [E ->]]; [destruct (neg a); lia|].
  rewrite E in *. cbn [val] in *. destruct (neg a); lia.
Qed.

Lemma shl_mval a n : wf a -> 0 <= n -> wf (shl a n) /\ mval (shl a n) = mval a * 2 ^ n.
Proof.
  intros W Hn. destruct (shl_spec a n W Hn) as (W' & N & V). split; auto.
  unfold mval. rewrite N, V. destruct (neg a); ring.
Qed.

Lemma shld_mval a n : wf a -> wf (shld a n) /\ mval (shld a n) = mval a * B ^ Z.of_nat n.
Proof.
  intros W. destruct (shld_spec a n W) as (W' & N & V). split; auto.
  unfold mval. rewrite N, V. destruct (neg a); ring.
Qed.

Lemma shrd_mval a n : wf a -> wf (shrd a n) /\ mval (shrd a n) = sg a * (val (dg a) / B ^ Z.of_nat n) /\
  val (dg (shrd a n)) = val (dg a) / B ^ Z.of_nat n /\
  sg a * val (dg (shrd a n)) = sg (shrd a n) * val (dg (shrd a n)) /\
  forall e, sg (shrd a n) * (val (dg (shrd a n)) mod e) = sg a * (val (dg (shrd a n)) mod e).
Proof.
  intros W. destruct (shrd_spec a n W) as (W' & V & N). split; auto.
  rewrite mval_sg, <- V. unfold sg.
  destruct N as [-> | [-> ->]]; [repeat split; auto|]. cbn [val].
  repeat split; try (destruct (neg a); lia). intro e. rewrite Zmod_0_l. destruct (neg a); lia.
Qed.

Ltac Zify.zify_post_hook ::= idtac.

(** *** Signed multiplication over a magnitude multiplication *)
Lemma mul_gen_ok f rs a b : wf a -> wf b -> mulabs_spec f rs a b ->
  exists r, mul_gen f rs a b = Ok r /\ canon r /\ mval r = mval a * mval b.
Proof.
  intros Wa Wb (r & E & Wr & V & _ & Z0). unfold mul_gen. rewrite E. cbn [bind].
  eexists. split; [reflexivity|].
  rewrite is_zero_val by auto. destruct (Z.eqb_spec (val (dg r)) 0) as [E0|E0].
  - assert (r = mzero) as ->.
    { apply Z0. rewrite !is_zero_val by auto.
      rewrite E0 in V. symmetry in V. apply Z.mul_eq_0 in V as [V|V]; rewrite V; [reflexivity|apply orb_true_r]. }
    split; [split; auto|]. rewrite !mval_sg. cbn [mzero dg val] in *. cbn [mzero dg val neg].
    replace (sg a * val (dg a) * (sg b * val (dg b))) with (sg a * sg b * (val (dg a) * val (dg b))) by ring.
    rewrite <- V. ring.
  - split; [split; [exact Wr|]|].
    + intro Q. cbn [set_sign dg] in Q. rewrite Q in E0. cbn in E0. lia.
    + unfold mval. cbn [set_sign neg dg]. rewrite V. destruct (neg a), (neg b); cbn [xorb]; ring.
Qed.

(** *** Toom-3 *)
Lemma toom_split a n : wf a -> (3 * n <= used a)%nat ->
  let T := B ^ Z.of_nat n in
  let e := 64 * Z.of_nat n in
  let a0 := mod_2e a e in let a1 := mod_2e (shrd a n) e in let a2 := shrd a (n * 2) in
  wf a0 /\ wf a1 /\ wf a2 /\
  mval a = mval a0 + T * mval a1 + T * T * mval a2 /\
  let M := B ^ Z.of_nat (used a - 2 * n) in
  Z.abs (mval a0) < M /\ Z.abs (mval a1) < M /\ Z.abs (mval a2) < M.
Proof.
  intros W Hn T e a0 a1 a2.
  assert (HT : 0 < T) by (apply Z.pow_pos_nonneg; [auto|lia]).
  assert (Te : 2 ^ e = T) by (unfold T, e; rewrite Bn_pow2; reflexivity).
  assert (T2 : B ^ Z.of_nat (n * 2) = T * T).
  { replace (Z.of_nat (n * 2)) with (Z.of_nat n + Z.of_nat n) by lia. apply Z.pow_add_r; lia. }
  assert (HM : T <= B ^ Z.of_nat (used a - 2 * n)) by (apply Z.pow_le_mono_r; [auto|lia]).
  assert (HV : val (dg a) < T * T * B ^ Z.of_nat (used a - 2 * n)).
  { rewrite <- T2. rewrite <- Z.pow_add_r by lia.
    replace (Z.of_nat (n * 2) + Z.of_nat (used a - 2 * n)) with (Z.of_nat (used a)) by lia.
    apply val_lt, W. }
  assert (He : 0 <= e) by (unfold e; lia).
  destruct (mod_2e_ok a e W He) as [W0 M0].
  destruct (shrd_mval a n W) as (Ws & Ms & Vs & _ & Ss).
  destruct (mod_2e_ok (shrd a n) e Ws He) as [W1 M1].
  destruct (shrd_mval a (n * 2) W) as (W2 & M2 & V2 & _ & _).
  rewrite Te in *. fold a0 in W0, M0. fold a1 in W1, M1. fold a2 in W2, M2, V2.
  rewrite Ss, Vs in M1. fold T in M1. rewrite T2 in M2.
  assert (Hv : 0 <= val (dg a)) by apply val_nonneg, W.
  rewrite (mval_sg a).
  assert (Hs : sg a = 1 \/ sg a = -1) by (unfold sg; destruct (neg a); auto).
  split; [auto|]. split; [auto|]. split; [auto|].
  cbv zeta. rewrite M0, M1, M2.
  generalize dependent (B ^ Z.of_nat (used a - 2 * n)). intros M HM HV.
  clear -HT HM HV Hv Hs. clearbody T. generalize dependent (val (dg a)). intros v HV Hv.
  generalize dependent (sg a). intros s Hs.
  rewrite <- Z.div_div by lia.
  pose proof (Z.div_mod v T ltac:(lia)) as D1.
  pose proof (Z.div_mod (v / T) T ltac:(lia)) as D2.
  pose proof (Z.mod_pos_bound v T HT) as B1. pose proof (Z.mod_pos_bound (v / T) T HT) as B2.
  assert (Hq : 0 <= v / T / T < M).
  { split; [apply Z.div_pos; [apply Z.div_pos; lia|lia]|].
    rewrite Z.div_div by lia. apply Z.div_lt_upper_bound; [apply Z.mul_pos_pos; lia|]. lia. }
  repeat split.
  - rewrite D1 at 1. rewrite D2 at 1. ring.
  - destruct Hs as [-> | ->]; lia.
  - destruct Hs as [-> | ->]; lia.
  - destruct Hs as [-> | ->]; lia.
Qed.

Lemma pow_bound x M n : Z.abs x < 8 * M -> M = B ^ Z.of_nat n -> Z.abs x < B ^ Z.of_nat (n + 1).
Proof.
  intros H ->. rewrite Nat2Z.inj_add. change (Z.of_nat 1) with 1.
  rewrite Z.pow_add_r, Z.pow_1_r by lia.
  assert (0 < B ^ Z.of_nat n) by (apply Z.pow_pos_nonneg; [auto|lia]).
  assert (B ^ Z.of_nat n * 8 <= B ^ Z.of_nat n * B) by (apply Z.mul_le_mono_nonneg_l; [lia|unfold B; lia]). lia.
Qed.

Lemma toom_lin3 r1 r2 r3 r4 r0 w1 w3 : w1 = r0 + r1 + r2 + r3 + r4 ->
  w3 = r0 - 2 * r1 + 4 * r2 - 8 * r3 + 16 * r4 ->
  w3 - w1 = 3 * (- r1 + r2 - 3 * r3 + 5 * r4).
Proof. lia. Qed.

Lemma toom3_ok f a b : wf a -> wf b ->
  let n := (Nat.min (used a) (used b) / 3)%nat in
  (forall rs x y, wf x -> wf y ->
     (used x <= used a - 2 * n + 1)%nat -> (used y <= used b - 2 * n + 1)%nat -> mulabs_spec f rs x y) ->
  exists r, toom3 f a b = Ok r /\ wf r /\ mval r = mval a * mval b /\
    ((is_zero a || is_zero b)%bool = true -> r = mzero).
Proof.
  intros Wa Wb n Hf. unfold toom3.
  destruct (is_zero a || is_zero b)%bool eqn:EZ.
  { exists mzero. apply orb_true_iff in EZ. rewrite !is_zero_val in EZ by auto.
    assert (mval a * mval b = 0).
    { rewrite !mval_sg. destruct EZ as [E|E]; apply Z.eqb_eq in E; rewrite E; ring. }
    repeat split; auto; cbn [dg mzero val]; try lia; unfold mval; cbn; lia. }
  fold n.
  assert (Hn : (3 * n <= used a /\ 3 * n <= used b)%nat).
  { pose proof (Nat.mul_div_le (Nat.min (used a) (used b)) 3 ltac:(lia)). unfold n. lia. }
  destruct (toom_split a n Wa (proj1 Hn)) as (Wa0 & Wa1 & Wa2 & Sa & La0 & La1 & La2).
  destruct (toom_split b n Wb (proj2 Hn)) as (Wb0 & Wb1 & Wb2 & Sb & Lb0 & Lb1 & Lb2).
  set (T := B ^ Z.of_nat n) in *.
  set (MA := B ^ Z.of_nat (used a - 2 * n)) in *. set (MB := B ^ Z.of_nat (used b - 2 * n)) in *.
  cbv zeta.
  set (a0 := mod_2e a (64 * Z.of_nat n)) in *. set (a1 := mod_2e (shrd a n) (64 * Z.of_nat n)) in *.
  set (a2 := shrd a (n * 2)) in *.
  set (b0 := mod_2e b (64 * Z.of_nat n)) in *. set (b1 := mod_2e (shrd b n) (64 * Z.of_nat n)) in *.
  set (b2 := shrd b (n * 2)) in *.
  clearbody a0 a1 a2 b0 b1 b2.
  assert (UA : forall x, wf x -> Z.abs (mval x) < 8 * MA -> (used x <= used a - 2 * n + 1)%nat).
  { intros x Wx Hx. apply used_le_abs; auto. apply (pow_bound _ _ _ Hx eq_refl). }
  assert (UB : forall x, wf x -> Z.abs (mval x) < 8 * MB -> (used x <= used b - 2 * n + 1)%nat).
  { intros x Wx Hx. apply used_le_abs; auto. apply (pow_bound _ _ _ Hx eq_refl). }
  assert (TE : B ^ Z.of_nat n = T) by reflexivity.
  clearbody MA MB T. clear EZ.
  assert (HM : forall rs x y, wf x -> wf y -> Z.abs (mval x) < 8 * MA -> Z.abs (mval y) < 8 * MB ->
     exists r, mul_gen f rs x y = Ok r /\ canon r /\ mval r = mval x * mval y).
  { intros. apply mul_gen_ok; auto. }
  clear Hf UA UB.
  destruct (add_spec a0 a2 Wa0 Wa2) as (t1 & -> & Wt1 & Mt1 & _). cbn [bind].
  destruct (add_spec b0 b2 Wb0 Wb2) as (t2 & -> & Wt2 & Mt2 & _). cbn [bind].
  destruct (add_spec t1 a1 Wt1 Wa1) as (p1 & -> & Wp1 & Mp1 & _). cbn [bind].
  destruct (add_spec t2 b1 Wt2 Wb1) as (p2 & -> & Wp2 & Mp2 & _). cbn [bind].
  destruct (HM false p1 p2 Wp1 Wp2 ltac:(lia) ltac:(lia)) as (w1 & -> & [Ww1 _] & Mw1). cbn [bind].
  destruct (sub_spec t1 a1 Wt1 Wa1) as (t1' & -> & Wt1' & Mt1' & _). cbn [bind].
  destruct (sub_spec t2 b1 Wt2 Wb1) as (t2' & -> & Wt2' & Mt2' & _). cbn [bind].
  destruct (HM (neg p2) t1' t2' Wt1' Wt2' ltac:(lia) ltac:(lia)) as (w2 & -> & [Ww2 _] & Mw2). cbn [bind].
  destruct (add_spec t1' a2 Wt1' Wa2) as (u1 & -> & Wu1 & Mu1 & _). cbn [bind].
  destruct (shl_mval u1 1 Wu1 ltac:(lia)) as [Wv1 Mv1]. set (v1 := shl u1 1) in *. clearbody v1.
  destruct (sub_spec v1 a0 Wv1 Wa0) as (x1 & -> & Wx1 & Mx1 & _). cbn [bind].
  destruct (add_spec t2' b2 Wt2' Wb2) as (u2 & -> & Wu2 & Mu2 & _). cbn [bind].
  destruct (shl_mval u2 1 Wu2 ltac:(lia)) as [Wv2 Mv2]. set (v2 := shl u2 1) in *. clearbody v2.
  destruct (sub_spec v2 b0 Wv2 Wb0) as (x2 & -> & Wx2 & Mx2 & _). cbn [bind].
  rewrite Z.pow_1_r in Mv1, Mv2.
  destruct (HM false x1 x2 Wx1 Wx2 ltac:(lia) ltac:(lia)) as (w3 & -> & [Ww3 _] & Mw3). cbn [bind].
  destruct (HM false a0 b0 Wa0 Wb0 ltac:(lia) ltac:(lia)) as (w0 & -> & [Ww0 _] & Mw0). cbn [bind].
  destruct (HM false a2 b2 Wa2 Wb2 ltac:(lia) ltac:(lia)) as (w4 & -> & [Ww4 _] & Mw4). cbn [bind].
  clear HM La0 La1 La2 Lb0 Lb1 Lb2.
  set (r1 := mval a0 * mval b1 + mval a1 * mval b0).
  set (r2 := mval a0 * mval b2 + mval a1 * mval b1 + mval a2 * mval b0).
  set (r3 := mval a1 * mval b2 + mval a2 * mval b1).
  assert (E1 : mval w1 = mval w0 + r1 + r2 + r3 + mval w4).
  { rewrite Mw1, Mp1, Mp2, Mt1, Mt2, Mw0, Mw4. unfold r1, r2, r3. ring. }
  assert (E2 : mval w2 = mval w0 - r1 + r2 - r3 + mval w4).
  { rewrite Mw2, Mt1', Mt2', Mt1, Mt2, Mw0, Mw4. unfold r1, r2, r3. ring. }
  assert (E3 : mval w3 = mval w0 - 2 * r1 + 4 * r2 - 8 * r3 + 16 * mval w4).
  { rewrite Mw3, Mx1, Mx2, Mv1, Mv2, Mu1, Mu2, Mt1', Mt2', Mt1, Mt2, Mw0, Mw4. unfold r1, r2, r3. ring. }
  assert (ER : mval a * mval b = mval w0 + T * r1 + T * T * r2 + T * T * T * r3 + T * T * T * T * mval w4).
  { rewrite Sa, Sb, Mw0, Mw4. unfold r1, r2, r3. ring. }
  clearbody r1 r2 r3.
  clear Sa Sb Mw0 Mw1 Mw2 Mw3 Mw4 Mt1 Mt2 Mp1 Mp2 Mt1' Mt2' Mu1 Mu2 Mv1 Mv2 Mx1 Mx2.
  clear Wt1 Wt2 Wp1 Wp2 Wt1' Wt2' Wu1 Wu2 Wv1 Wv2 Wx1 Wx2 Wa0 Wa1 Wa2 Wb0 Wb1 Wb2.
  destruct (sub_spec w3 w1 Ww3 Ww1) as (y3 & -> & Wy3 & My3 & _). cbn [bind].
  destruct (div3_ok y3 (- r1 + r2 - 3 * r3 + 5 * mval w4) Wy3) as (z3 & -> & Wz3 & Mz3).
  { rewrite My3. apply (toom_lin3 r1 r2 r3 (mval w4) (mval w0)); auto. }
  cbn [bind].
  destruct (sub_spec w1 w2 Ww1 Ww2) as (y1 & -> & Wy1 & My1 & _). cbn [bind].
  destruct (shr1_ok y1 (r1 + r3) Wy1) as [Wz1 Mz1]. { lia. }
  set (z1 := shr y1 1) in *. clearbody z1.
  destruct (sub_spec w2 w0 Ww2 Ww0) as (y2 & -> & Wy2 & My2 & _). cbn [bind].
  destruct (sub_spec y2 z3 Wy2 Wz3) as (q3 & -> & Wq3 & Mq3 & _). cbn [bind].
  destruct (shr1_ok q3 (r3 - 2 * mval w4) Wq3) as [Wk3 Mk3]. { lia. }
  set (k3 := shr q3 1) in *. clearbody k3.
  destruct (shl_mval w4 1 Ww4 ltac:(lia)) as [Wd4 Md4]. set (d4 := shl w4 1) in *. clearbody d4.
  rewrite Z.pow_1_r in Md4.
  destruct (add_spec k3 d4 Wk3 Wd4) as (m3 & -> & Wm3 & Mm3 & _). cbn [bind].
  destruct (add_spec y2 z1 Wy2 Wz1) as (k2 & -> & Wk2 & Mk2 & _). cbn [bind].
  destruct (sub_spec k2 w4 Wk2 Ww4) as (m2 & -> & Wm2 & Mm2 & _). cbn [bind].
  destruct (sub_spec z1 m3 Wz1 Wm3) as (m1 & -> & Wm1 & Mm1 & _). cbn [bind].
  assert (F1 : mval m1 = r1) by lia. assert (F2 : mval m2 = r2) by lia. assert (F3 : mval m3 = r3) by lia.
  destruct (shld_mval m1 (1 * n) Wm1) as [Ws1 Ms1]. destruct (shld_mval m2 (2 * n) Wm2) as [Ws2 Ms2].
  destruct (shld_mval m3 (3 * n) Wm3) as [Ws3 Ms3]. destruct (shld_mval w4 (4 * n) Ww4) as [Ws4 Ms4].
  set (s1 := shld m1 (1 * n)) in *. set (s2 := shld m2 (2 * n)) in *.
  set (s3 := shld m3 (3 * n)) in *. set (s4 := shld w4 (4 * n)) in *.
  destruct (add_spec w0 s1 Ww0 Ws1) as (g0 & -> & Wg0 & Mg0 & _). cbn [bind].
  destruct (add_spec s2 s3 Ws2 Ws3) as (g1 & -> & Wg1 & Mg1 & _). cbn [bind].
  destruct (add_spec s4 g1 Ws4 Wg1) as (g2 & -> & Wg2 & Mg2 & _). cbn [bind].
  destruct (add_spec g2 g0 Wg2 Wg0) as (g & -> & Wg & Mg & _).
  exists g. split; [reflexivity|]. split; auto. split; [|discriminate].
  rewrite Mg, Mg2, Mg1, Mg0, Ms1, Ms2, Ms3, Ms4, F1, F2, F3, ER.
  rewrite !Nat2Z.inj_mul. rewrite !(Z.mul_comm _ (Z.of_nat n)).
  rewrite !Z.pow_mul_r by lia. rewrite TE.
  change (Z.of_nat 1) with 1. change (Z.of_nat 2) with 2. change (Z.of_nat 3) with 3. change (Z.of_nat 4) with 4.
  ring.
Qed.

(** *** The dispatcher *)
Lemma mul_abs_f_ok fuel : forall rs a b, wf a -> wf b ->
  (Nat.min (used a) (used b) < fuel)%nat -> mulabs_spec (mul_abs_f fuel) rs a b.
Proof.
  induction fuel as [|f IH]; intros rs a b Wa Wb Hf; [lia|].
  unfold mulabs_spec. cbn [mul_abs_f].
  pose proof (Nat.mul_div_le (Nat.min (used a) (used b)) 3 ltac:(lia)) as D3.
  destruct (Nat.ltb_spec 300 (Nat.min (used a) (used b))) as [L|L].
  - destruct (toom3_ok (mul_abs_f f) a b Wa Wb) as (r & E & W & M & Z0).
    { intros rs' x y Wx Wy Ux Uy. apply IH; auto.
      assert (1 <= Nat.min (used a) (used b) / 3)%nat by (apply Nat.div_le_lower_bound; lia). lia. }
    exists r. repeat split; try apply W; auto.
    + rewrite <- abs_mval, M, Z.abs_mul, !abs_mval by auto. reflexivity.
    + intros _ Na Nb. rewrite M. unfold mval. rewrite Na, Nb. reflexivity.
  - destruct (Nat.ltb_spec 64 (Nat.min (used a) (used b))) as [L'|L'].
    + destruct (karatsuba_ok (mul_abs_f f) a b Wa Wb) as (r & E & W & V & M & Z0).
      { intros x y Wx Wy Nx Ny Ux Uy. apply IH; auto.
        assert (2 <= Nat.div2 (Nat.min (used a) (used b)))%nat.
        { rewrite Nat.div2_div. apply Nat.div_le_lower_bound; lia. }
        assert (2 * Nat.div2 (Nat.min (used a) (used b)) <= Nat.min (used a) (used b))%nat.
        { rewrite Nat.div2_div. apply Nat.mul_div_le. lia. }
        lia. }
      exists r. repeat split; try apply W; auto.
    + apply (mul_comba_spec rs a b Wa Wb).
Qed.

Lemma mul_abs_spec rs a b : wf a -> wf b -> mulabs_spec mul_abs rs a b.
Proof.
  intros Wa Wb. unfold mul_abs.
  destruct (mul_abs_f_ok (S (Nat.min (used a) (used b))) rs a b Wa Wb ltac:(lia)) as (r & H). exists r. exact H.
Qed.

Lemma mul_spec rs a b : wf a -> wf b ->
  exists r, mul rs a b = Ok r /\ canon r /\ mval r = mval a * mval b.
Proof. intros. apply mul_gen_ok; auto. apply mul_abs_spec; auto. Qed.

(** One-digit multiplication, digit possibly zero. *)
Lemma mul_dig_spec rs a d : wf a -> 0 <= d < B ->
  exists r, mul_dig rs a d = Ok r /\ wf r /\ mval r = mval a * d /\ (rs = false -> canon r) /\
   (rs = neg a -> mval a <> 0 -> neg r = neg a).
Proof.
  intros Wa Hd. unfold mul_dig, mul, mul_gen, mul_abs. unfold used. cbn [dg length].
  remember (Nat.min (length (dg a)) 1) as m. cbn [mul_abs_f]. unfold used. cbn [dg length]. rewrite <- Heqm.
  destruct (Nat.ltb_spec 300 m); [lia|]. destruct (Nat.ltb_spec 64 m); [lia|]. cbn [bind].
  assert (Hd' : digits [d]) by (apply digits_cons; auto).
  destruct (mul_comba_ok rs a (mkmpi false [d]) (proj1 Wa) Hd') as [W V]. cbn [dg val] in V.
  eexists. split; [reflexivity|].
  set (r := mul_comba rs a (mkmpi false [d])) in *.
  assert (Nr : neg r = rs \/ r = mzero).
  { unfold r, mul_comba, mul_comba_gen. destruct (_ || _)%bool; auto. }
  rewrite is_zero_val by auto. destruct (Z.eqb_spec (val (dg r)) 0) as [E|E].
  - split; auto. split.
    + rewrite !mval_sg. rewrite E. replace (sg a * val (dg a) * d) with (sg a * (val (dg a) * (d + B * 0))) by ring.
      rewrite <- V, E. ring.
    + split.
      * intros ->. split; auto. intros _. destruct Nr as [Nr | ->]; auto.
      * intros -> Ha. destruct Nr as [Nr | Nr]; auto.
        unfold r, mul_comba, mul_comba_gen in Nr. rewrite is_zero_val in Nr by auto.
        destruct (Z.eqb_spec (val (dg a)) 0) as [E0|E0]; [exfalso; apply Ha; rewrite mval_sg, E0; ring|].
        unfold r, mul_comba, mul_comba_gen. rewrite is_zero_val by auto.
        destruct (Z.eqb_spec (val (dg a)) 0); [contradiction|]. reflexivity.
  - split; [exact W|]. split; [|split].
    + unfold mval. cbn [set_sign neg dg]. rewrite V, xorb_false_r. destruct (neg a); ring.
    + intros _. split; [exact W|]. intro Q. cbn [set_sign dg] in Q. rewrite Q in E. cbn in E. lia.
    + intros _ _. cbn [set_sign neg]. apply xorb_false_r.
Qed.
