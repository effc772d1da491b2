(** Correctness of the multiplication and squaring routines. *)
From Verif Require Import Base Bits MpiModel MpiSpec MpiDigits MpiMulModel.
Ltac Zify.zify_post_hook ::= Z.div_mod_to_equations.

(** *** Finite sums *)
Fixpoint sum (f : nat -> Z) (n : nat) : Z :=
  match n with O => 0 | S n' => sum f n' + f n' end.

Lemma sum_ext f g n : (forall i, (i < n)%nat -> f i = g i) -> sum f n = sum g n.
Proof. induction n; intro H; cbn [sum]; [auto|]. rewrite IHn by (intros; apply H; lia). rewrite H by lia. auto. Qed.
Lemma sum_0 f n : (forall i, (i < n)%nat -> f i = 0) -> sum f n = 0.
Proof. induction n; intro H; cbn [sum]; [auto|]. rewrite IHn by (intros; apply H; lia). rewrite H by lia. auto. Qed.
Lemma sum_split f n m : sum f (n + m) = sum f n + sum (fun i => f (n + i)%nat) m.
Proof. induction m; [rewrite Nat.add_0_r; cbn [sum]; lia|]. rewrite Nat.add_succ_r. cbn [sum]. rewrite IHm. ring. Qed.
Lemma sum_S_l f n : sum f (S n) = f O + sum (fun i => f (S i)) n.
Proof. change (S n) with (1 + n)%nat. rewrite sum_split. cbn [sum Nat.add]. reflexivity. Qed.
Lemma sum_mul c f n : sum (fun i => c * f i) n = c * sum f n.
Proof. induction n; cbn [sum]; [lia|]. rewrite IHn. lia. Qed.
Lemma sum_add f g n : sum (fun i => f i + g i) n = sum f n + sum g n.
Proof. induction n; cbn [sum]; [lia|]. rewrite IHn. lia. Qed.
Lemma sum_le f g n : (forall i, (i < n)%nat -> f i <= g i) -> sum f n <= sum g n.
Proof. induction n; intro H; cbn [sum]; [lia|]. pose proof (H n ltac:(lia)). specialize (IHn ltac:(intros; apply H; lia)). lia. Qed.
Lemma sum_rev f n : sum f n = sum (fun i => f (n - 1 - i)%nat) n.
Proof.
  induction n; [reflexivity|]. rewrite (sum_S_l (fun i => f (S n - 1 - i)%nat)). cbn [sum]. rewrite IHn.
  replace (S n - 1 - 0)%nat with n by lia. rewrite Z.add_comm. f_equal.
  apply sum_ext. intros. f_equal. lia.
Qed.

(** Digit polynomial. *)
Lemma val_sum l : val l = sum (fun i => nth i l 0 * B ^ Z.of_nat i) (length l).
Proof.
  induction l as [|d l IH]; [reflexivity|]. cbn [val length]. rewrite sum_S_l, IH.
  cbn [nth]. change (Z.of_nat 0) with 0. rewrite Z.pow_0_r, Z.mul_1_r. f_equal.
  rewrite <- sum_mul. apply sum_ext. intros. rewrite Nat2Z.inj_succ, Z.pow_succ_r by lia. ring.
Qed.

Lemma val_sum_ge l n : (length l <= n)%nat -> val l = sum (fun i => nth i l 0 * B ^ Z.of_nat i) n.
Proof.
  intro H. replace n with (length l + (n - length l))%nat by lia. rewrite sum_split, <- val_sum.
  rewrite sum_0; [lia|]. intros. rewrite nth_overflow by lia. reflexivity.
Qed.

Lemma nth_digit l i : digits l -> 0 <= nth i l 0 < B.
Proof.
  intro H. destruct (Nat.lt_ge_cases i (length l)) as [L|L].
  - unfold digits in H. rewrite Forall_forall in H. apply H. apply nth_In; auto.
  - rewrite nth_overflow by auto. pose proof B_pos; lia.
Qed.

(** *** Convolution *)
Fixpoint conv (a b : list Z) (k : nat) : Z :=
  match a with
  | [] => 0
  | x :: a' => x * nth k b 0 + match k with O => 0 | S k' => conv a' b k' end
  end.

Lemma conv_sum a b k : conv a b k = sum (fun i => nth i a 0 * nth (k - i) b 0) (S k).
Proof.
  revert a. induction k as [|k IH]; intros [|x a]; cbn [conv].
  - cbn [sum nth]. ring.
  - cbn [sum nth Nat.sub]. ring.
  - symmetry. apply sum_0. intros. destruct i; cbn [nth]; reflexivity.
  - rewrite IH. rewrite (sum_S_l (fun i => nth i (x :: a) 0 * nth (S k - i) b 0)). cbn [nth]. rewrite Nat.sub_0_r. reflexivity.
Qed.

Lemma conv_val a : forall b n, (length a + length b <= n)%nat ->
  sum (fun k => conv a b k * B ^ Z.of_nat k) n = val a * val b.
Proof.
  induction a as [|x a IH]; intros b n H; cbn [length] in H.
  - cbn [val conv]. rewrite sum_0; [lia|intros; lia].
  - destruct n as [|n]; [lia|]. cbn [val].
    transitivity (x * val b + B * (val a * val b)); [|ring].
    rewrite <- (IH b n) by lia. rewrite (val_sum_ge b (S n)) by lia.
    rewrite <- !sum_mul. rewrite (sum_S_l (fun k => conv (x :: a) b k * B ^ Z.of_nat k)).
    rewrite (sum_S_l (fun i => x * _)). rewrite <- Z.add_assoc. f_equal.
    + cbn [conv]. ring.
    + rewrite <- sum_add. apply sum_ext. intros i _. cbn [conv].
      rewrite Nat2Z.inj_succ, Z.pow_succ_r by lia. ring.
Qed.

(** *** The three-word accumulator *)
Definition accv (c : Z * Z * Z) : Z := let '(c0, c1, c2) := c in c0 + B * c1 + B * B * c2.
Definition accok (c : Z * Z * Z) : Prop :=
  let '(c0, c1, c2) := c in 0 <= c0 < B /\ 0 <= c1 /\ 0 <= c2.

Lemma muladd_c1 c i j : 0 <= snd (fst (muladd c i j)) < B.
Proof. destruct c as [[c0 c1] c2]. cbn [muladd fst snd]. apply Z.mod_pos_bound; auto. Qed.

Lemma muladd_ok c i j : accok c -> 0 <= i < B -> 0 <= j < B ->
  accok (muladd c i j) /\ accv (muladd c i j) = accv c + i * j.
Proof.
  destruct c as [[c0 c1] c2]. intros (H0 & H1 & H2) Hi Hj. cbn [muladd accok accv].
  assert (0 <= i * j) by nia.
  pose proof (Z.div_mod (c0 + i * j) B ltac:(discriminate)) as D1.
  pose proof (Z.mod_pos_bound (c0 + i * j) B B_pos) as M1.
  assert (0 <= (c0 + i * j) / B) by (apply Z.div_pos; [lia|auto]).
  set (q := (c0 + i * j) / B) in *.
  pose proof (Z.div_mod (c1 + q) B ltac:(discriminate)) as D2.
  pose proof (Z.mod_pos_bound (c1 + q) B B_pos) as M2.
  assert (0 <= (c1 + q) / B) by (apply Z.div_pos; [lia|auto]).
  repeat split; try lia.
Qed.

Lemma comba_col_ok a b n : forall tx ty c, digits a -> digits b -> accok c -> (n <= S ty)%nat ->
  accok (comba_col muladd a b tx ty n c) /\
  accv (comba_col muladd a b tx ty n c) =
    accv c + sum (fun i => nth (tx + i) a 0 * nth (ty - i) b 0) n.
Proof.
  induction n as [|n IH]; intros tx ty c Ha Hb Hc Hn; cbn [comba_col].
  - cbn [sum]. split; auto. lia.
  - destruct (muladd_ok c (nth tx a 0) (nth ty b 0) Hc (nth_digit a tx Ha) (nth_digit b ty Hb)) as [O1 O2].
    destruct (IH (S tx) (Nat.pred ty) _ Ha Hb O1 ltac:(lia)) as [I1 I2]. split; auto.
    rewrite I2, O2, sum_S_l. rewrite Nat.add_0_r, Nat.sub_0_r.
    rewrite <- Z.add_assoc. f_equal. f_equal. apply sum_ext. intros i Hi. f_equal; f_equal; lia.
Qed.

(** The windowed column sum is the convolution coefficient. *)
Lemma window_conv a b ix : a <> [] -> b <> [] ->
  let ty := Nat.min ix (length b - 1) in
  let tx := (ix - ty)%nat in
  let iy := Nat.min (length a - tx) (ty + 1) in
  sum (fun i => nth (tx + i) a 0 * nth (ty - i) b 0) iy = conv a b ix.
Proof.
  intros Ha Hb ty tx iy.
  assert (0 < length a)%nat by (destruct a; [congruence|cbn; lia]).
  assert (0 < length b)%nat by (destruct b; [congruence|cbn; lia]).
  rewrite conv_sum.
  assert (E : S ix = (tx + (iy + (S ix - tx - iy)))%nat) by (unfold iy, tx, ty; lia).
  rewrite E, !sum_split.
  rewrite (sum_0 _ tx). 2:{ intros i Hi. rewrite (nth_overflow b) by (unfold tx, ty in *; lia). ring. }
  rewrite (sum_0 _ (S ix - tx - iy)). 2:{ intros i Hi. rewrite (nth_overflow a) by (unfold iy, tx, ty in *; lia). ring. }
  rewrite Z.add_0_l, Z.add_0_r. apply sum_ext. intros i Hi. f_equal. f_equal. unfold iy, tx, ty in *. lia.
Qed.

Lemma comba_col_c1 a b n : forall tx ty c, (0 < n)%nat ->
  0 <= snd (fst (comba_col muladd a b tx ty n c)) < B.
Proof.
  induction n as [|n IH]; intros tx ty c Hn; [lia|]. cbn [comba_col].
  destruct n as [|n]; [cbn [comba_col]; apply muladd_c1|]. apply IH. lia.
Qed.

Lemma comba_loop_len ma a b k : forall ix c1 c2, length (comba_loop ma a b k ix c1 c2) = k.
Proof.
  induction k as [|k IH]; intros ix c1 c2; cbn [comba_loop]; [reflexivity|].
  destruct (comba_col _ _ _ _ _ _ _) as [[d0 d1] d2]. cbn [length]. rewrite IH. reflexivity.
Qed.

Lemma comba_loop_ok a b : a <> [] -> b <> [] -> digits a -> digits b -> forall k ix c1 c2,
  (ix + k <= length a + length b)%nat -> 0 <= c1 < B -> 0 <= c2 ->
  digits (comba_loop muladd a b k ix c1 c2) /\
  exists rest, 0 <= rest /\
  val (comba_loop muladd a b k ix c1 c2) + B ^ Z.of_nat k * rest =
  c1 + B * c2 + sum (fun j => conv a b (ix + j) * B ^ Z.of_nat j) k.
Proof.
  intros Na Nb Ha Hb. induction k as [|k IH]; intros ix c1 c2 Hk H1 H2; cbn [comba_loop].
  - split; auto. exists (c1 + B * c2). cbn [val sum]. change (Z.of_nat 0) with 0. rewrite Z.pow_0_r.
    pose proof B_pos. split; [nia|lia].
  - set (ty := Nat.min ix (length b - 1)). set (tx := (ix - ty)%nat).
    set (iy := Nat.min (length a - tx) (ty + 1)).
    destruct (comba_col_ok a b iy tx ty (c1, c2, 0) Ha Hb) as [O1 O2].
    { cbn. lia. } { unfold iy. lia. }
    pose proof (comba_col_c1 a b iy tx ty (c1, c2, 0)) as C1.
    pose proof (window_conv a b ix Na Nb) as WC. cbv zeta in WC. fold ty in WC. fold tx in WC. fold iy in WC.
    rewrite WC in O2. clear WC.
    destruct (comba_col muladd a b tx ty iy (c1, c2, 0)) as [[d0 d1] d2].
    cbn [accok accv fst snd] in *. destruct O1 as (P0 & P1 & P2).
    rewrite sum_S_l. rewrite Nat.add_0_r. change (Z.of_nat 0) with 0. rewrite Z.pow_0_r, Z.mul_1_r.
    assert (ES : sum (fun i => conv a b (ix + S i) * B ^ Z.of_nat (S i)) k =
                 B * sum (fun j => conv a b (S ix + j) * B ^ Z.of_nat j) k).
    { rewrite <- sum_mul. apply sum_ext. intros i _.
      rewrite Nat2Z.inj_succ, Z.pow_succ_r by lia. rewrite Nat.add_succ_r, Nat.add_succ_l. ring. }
    rewrite ES. rewrite Nat2Z.inj_succ, Z.pow_succ_r by lia.
    destruct k as [|k].
    + cbn [comba_loop val sum]. split; [apply digits_cons; auto|].
      exists (d1 + B * d2). change (Z.of_nat 0) with 0. rewrite Z.pow_0_r. pose proof B_pos.
      split; [nia|]. lia.
    + assert (Hd1 : 0 <= d1 < B).
      { apply C1. assert (0 < length a)%nat by (destruct a; [congruence|cbn; lia]).
        unfold iy, tx, ty. lia. }
      destruct (IH (S ix) d1 d2 ltac:(lia) Hd1 P2) as (I1 & rest & I2 & I3).
      split; [apply digits_cons; auto|]. exists rest. split; auto.
      cbn [val].
      replace (d0 + B * val (comba_loop muladd a b (S k) (S ix) d1 d2) + B * B ^ Z.of_nat (S k) * rest)
        with (d0 + B * (val (comba_loop muladd a b (S k) (S ix) d1 d2) + B ^ Z.of_nat (S k) * rest)) by ring.
      rewrite I3. lia.
Qed.

Lemma val_mul_lt a b : digits a -> digits b ->
  val a * val b < B ^ Z.of_nat (length a + length b).
Proof.
  intros Ha Hb. rewrite Nat2Z.inj_add, Z.pow_add_r by lia.
  pose proof (val_lt _ Ha). pose proof (val_lt _ Hb).
  pose proof (val_nonneg _ Ha). pose proof (val_nonneg _ Hb). nia.
Qed.

Lemma val_exact v m rest tot : 0 <= v < m -> 0 <= rest -> v + m * rest = tot -> tot < m -> v = tot.
Proof. intros. destruct (Z.eq_dec rest 0); [subst; lia|]. nia. Qed.

Lemma comba_loop_mul a b : a <> [] -> b <> [] -> digits a -> digits b ->
  let l := comba_loop muladd a b (length a + length b) 0 0 0 in
  digits l /\ val l = val a * val b.
Proof.
  intros Na Nb Ha Hb l.
  destruct (comba_loop_ok a b Na Nb Ha Hb (length a + length b) 0 0 0) as (D & rest & R & E); try lia.
  { pose proof B_pos; lia. }
  fold l in D, E. split; auto.
  replace (0 + B * 0 + _) with (val a * val b) in E
    by (rewrite <- (conv_val a b (length a + length b)) by lia; cbn [Nat.add]; lia).
  pose proof (val_mul_lt a b Ha Hb) as HL. pose proof (val_nonneg _ D). pose proof (val_lt _ D) as LD.
  unfold l in LD at 2. rewrite comba_loop_len in LD.
  apply (val_exact _ _ rest _ (conj H LD) R E HL).
Qed.

(** Comba multiplication accepts unnormalised operands too. *)
Lemma mul_comba_ok rs a b : digits (dg a) -> digits (dg b) ->
  wf (mul_comba rs a b) /\ val (dg (mul_comba rs a b)) = val (dg a) * val (dg b).
Proof.
  intros Ha Hb. unfold mul_comba, mul_comba_gen, is_zero.
  destruct (dg a) as [|x l] eqn:Ea; [cbn [orb]; split; [auto|reflexivity]|].
  destruct (dg b) as [|y l'] eqn:Eb; [cbn [orb]; split; [auto|cbn [mzero dg val]; lia]|].
  cbn [orb dg]. unfold used. rewrite Ea, Eb.
  destruct (comba_loop_mul (x :: l) (y :: l') ltac:(discriminate) ltac:(discriminate) Ha Hb) as [D V].
  split; [split; cbn [dg]; auto|]. rewrite adjust_val. exact V.
Qed.

(** *** The wrapped accumulator agrees *)
Lemma muladd_w_eq c i j n : accok c -> snd (fst c) < B -> snd c <= n -> n + 1 < B -> 0 <= i < B -> 0 <= j < B ->
  muladd_w c i j = muladd c i j /\ snd (muladd c i j) <= n + 1.
Proof.
  destruct c as [[c0 c1] c2]. cbn [accok fst snd]. intros (H0 & H1 & H2) H1' H2' Hn Hi Hj.
  unfold muladd_w, muladd. cbn [snd].
  assert (c0 + i * j < B * B).
  { assert (i * j <= (B - 1) * (B - 1)) by (apply Z.mul_le_mono_nonneg; lia). unfold B in *; lia. }
  assert (0 <= c0 + i * j) by nia.
  assert (0 <= (c0 + i * j) / B < B).
  { split; [apply Z.div_pos; auto|]. apply Z.div_lt_upper_bound; auto. }
  assert (0 <= (c1 + (c0 + i * j) / B) / B <= 1).
  { split; [apply Z.div_pos; [lia|auto]|]. apply Z.lt_succ_r. apply Z.div_lt_upper_bound; [auto|unfold B in *; lia]. }
  split; [|lia]. f_equal. apply Z.mod_small. lia.
Qed.

Lemma comba_col_w a b n : forall tx ty c m, digits a -> digits b -> accok c -> snd (fst c) < B ->
  snd c <= m -> m + Z.of_nat n < B ->
  comba_col muladd_w a b tx ty n c = comba_col muladd a b tx ty n c /\
  snd (comba_col muladd a b tx ty n c) <= m + Z.of_nat n.
Proof.
  induction n as [|n IH]; intros tx ty c m Ha Hb Hc H1 H2 Hn.
  - cbn [comba_col]. split; [auto|lia].
  - cbn [comba_col].
    destruct (muladd_w_eq c (nth tx a 0) (nth ty b 0) m Hc H1 H2 ltac:(lia) (nth_digit a tx Ha) (nth_digit b ty Hb)) as [E L].
    rewrite E.
    destruct (muladd_ok c (nth tx a 0) (nth ty b 0) Hc (nth_digit a tx Ha) (nth_digit b ty Hb)) as [O _].
    destruct (IH (S tx) (Nat.pred ty) _ (m + 1) Ha Hb O (proj2 (muladd_c1 _ _ _)) L ltac:(lia)) as [I1 I2].
    split; [exact I1|lia].
Qed.

Lemma comba_loop_w a b : digits a -> digits b -> Z.of_nat (length b) < B ->
  a <> [] -> b <> [] ->
  forall k ix c1 c2, (ix + k <= length a + length b)%nat -> 0 <= c1 < B -> 0 <= c2 < B ->
  comba_loop muladd_w a b k ix c1 c2 = comba_loop muladd a b k ix c1 c2.
Proof.
  intros Ha Hb HL Na Nb. induction k as [|k IH]; intros ix c1 c2 Hk H1 H2; cbn [comba_loop]; [reflexivity|].
  assert (0 < length a)%nat by (destruct a; [congruence|cbn; lia]).
  assert (0 < length b)%nat by (destruct b; [congruence|cbn; lia]).
  set (ty := Nat.min ix (length b - 1)). set (tx := (ix - ty)%nat).
  set (iy := Nat.min (length a - tx) (ty + 1)).
  assert (Hiy : (iy <= length b)%nat) by (unfold iy, ty; lia).
  destruct (comba_col_w a b iy tx ty (c1, c2, 0) 0 Ha Hb) as [E L]; try (cbn [accok fst snd]; lia).
  rewrite E.
  destruct (comba_col_ok a b iy tx ty (c1, c2, 0) Ha Hb) as [O _].
  { cbn. lia. } { unfold iy. lia. }
  pose proof (comba_col_c1 a b iy tx ty (c1, c2, 0)) as C1.
  destruct (comba_col muladd a b tx ty iy (c1, c2, 0)) as [[d0 d1] d2]. cbn [accok fst snd] in *.
  f_equal. destruct k as [|k]; [reflexivity|]. apply IH; try lia.
Qed.

Lemma mul_comba_w_eq rs a b : digits (dg a) -> digits (dg b) -> Z.of_nat (used b) < B ->
  mul_comba_w rs a b = mul_comba rs a b.
Proof.
  intros Ha Hb HL. unfold mul_comba_w, mul_comba, mul_comba_gen, is_zero, used in *.
  destruct (dg a) as [|x l]; [reflexivity|]. destruct (dg b) as [|y l']; [reflexivity|].
  cbn [orb]. rewrite comba_loop_w; auto; try discriminate; pose proof B_pos; lia.
Qed.

(** *** Baseline *)
Lemma base_row_ok x b : forall t u, 0 <= x < B -> digits b -> digits t -> 0 <= u < B ->
  (length b < length t)%nat -> nth (length b) t 0 = 0 ->
  digits (base_row x b t u) /\ val (base_row x b t u) = val t + x * val b + u /\
  length (base_row x b t u) = length t /\
  (forall i, (length b < i)%nat -> nth i (base_row x b t u) 0 = nth i t 0).
Proof.
  induction b as [|y b IH]; intros [|d t] u Hx Hb Ht Hu HL H0; cbn [length] in HL; try lia.
  - cbn [base_row length nth val] in *. apply digits_cons in Ht as [Hd Ht]. repeat split.
    + apply digits_cons; auto.
    + lia.
    + intros [|i] Hi; [lia|]. reflexivity.
  - cbn [base_row length nth val] in *. apply digits_cons in Ht as [Hd Ht]. apply digits_cons in Hb as [Hy Hb].
    assert (HD : 0 <= d + x * y + u < B * B).
    { assert (x * y <= (B - 1) * (B - 1)) by (apply Z.mul_le_mono_nonneg; lia).
      split; [nia|unfold B in *; lia]. }
    assert (HU : 0 <= (d + x * y + u) / B < B).
    { split; [apply Z.div_pos; [lia|auto]|]. apply Z.div_lt_upper_bound; [auto|lia]. }
    destruct (IH t _ Hx Hb Ht HU ltac:(lia) H0) as (I1 & I2 & I3 & I4).
    pose proof (Z.div_mod (d + x * y + u) B ltac:(discriminate)) as DM.
    repeat split.
    + apply digits_cons; split; auto. apply Z.mod_pos_bound; auto.
    + rewrite I2. lia.
    + cbn [length]. lia.
    + intros [|i] Hi; [lia|]. apply I4. lia.
Qed.

Lemma base_rows_ok b : digits b -> forall a t, digits a -> digits t ->
  (length a + length b <= length t)%nat -> (forall i, (length b <= i)%nat -> nth i t 0 = 0) ->
  digits (base_rows a b t) /\ val (base_rows a b t) = val t + val a * val b.
Proof.
  intros Hb. induction a as [|x a IH]; intros t Ha Ht HL H0; cbn [base_rows].
  - cbn [val]. split; [auto|lia].
  - apply digits_cons in Ha as [Hx Ha]. cbn [length] in HL.
    destruct (base_row_ok x b t 0 Hx Hb Ht ltac:(pose proof B_pos; lia) ltac:(lia) (H0 _ (Nat.le_refl _))) as (R1 & R2 & R3 & R4).
    destruct (base_row x b t 0) as [|d t'] eqn:E; [cbn [length] in R3; lia|].
    apply digits_cons in R1 as [Hd Ht']. cbn [length val] in *.
    destruct (IH t' Ha Ht' ltac:(lia)) as [I1 I2].
    { intros i Hi. specialize (R4 (S i) ltac:(lia)). cbn [nth] in R4. rewrite R4. apply H0. lia. }
    split; [apply digits_cons; auto|]. rewrite I2.
    rewrite Z.mul_add_distr_l, Z.add_assoc, R2. ring.
Qed.

Lemma mul_baseline_ok a b : digits (dg a) -> digits (dg b) ->
  wf (mul_baseline a b) /\ val (dg (mul_baseline a b)) = val (dg a) * val (dg b).
Proof.
  intros Ha Hb. unfold mul_baseline, is_zero.
  destruct (dg a) as [|x l] eqn:Ea; [cbn [orb]; split; [auto|reflexivity]|].
  destruct (dg b) as [|y l'] eqn:Eb; [cbn [orb]; split; [auto|cbn [mzero dg val]; lia]|].
  cbn [orb dg]. unfold used. rewrite Ea, Eb.
  destruct (base_rows_ok (y :: l') Hb (x :: l) (repeat 0 (length (x :: l) + length (y :: l')))) as [D V]; auto.
  { rewrite repeat_length; lia. } { intros i _. apply nth_repeat. }
  split; [split; cbn [dg]; auto|]. rewrite adjust_val, V, val_repeat0. lia.
Qed.

(** *** Length from value *)
Lemma used_le a n : wf a -> val (dg a) < B ^ Z.of_nat n -> (used a <= n)%nat.
Proof.
  intros [Ha Na] H. unfold used. destruct (dg a) as [|d l] eqn:E; [cbn; lia|].
  pose proof (normal_pos _ _ Ha Na) as P. cbn [length].
  destruct (Nat.le_gt_cases (S (length l)) n) as [L|L]; auto. exfalso.
  assert (B ^ Z.of_nat n <= B ^ Z.of_nat (length l)) by (apply Z.pow_le_mono_r; [auto|lia]). lia.
Qed.

Lemma abs_mval a : wf a -> Z.abs (mval a) = val (dg a).
Proof. intros [Ha _]. pose proof (val_nonneg _ Ha). unfold mval. destruct (neg a); lia. Qed.

Lemma used_le_abs a n : wf a -> Z.abs (mval a) < B ^ Z.of_nat n -> (used a <= n)%nat.
Proof. intros W H. rewrite abs_mval in H by auto. apply used_le; auto. Qed.

(** *** The contract of a magnitude multiplication *)
Definition mulabs_spec (f : bool -> mpi -> mpi -> res mpi) (rs : bool) (a b : mpi) : Prop :=
  exists r, f rs a b = Ok r /\ wf r /\ val (dg r) = val (dg a) * val (dg b) /\
    (rs = false -> neg a = false -> neg b = false -> mval r = val (dg a) * val (dg b)) /\
    ((is_zero a || is_zero b)%bool = true -> r = mzero).

Lemma mul_comba_spec rs a b : wf a -> wf b -> mulabs_spec (fun rs a b => Ok (mul_comba rs a b)) rs a b.
Proof.
  intros Wa Wb. exists (mul_comba rs a b). destruct (mul_comba_ok rs a b (proj1 Wa) (proj1 Wb)) as [W V].
  repeat split; try apply W; auto.
  - intros -> _ _. rewrite <- V. unfold mval. unfold mul_comba, mul_comba_gen. destruct (_ || _)%bool; reflexivity.
  - intro Z0. unfold mul_comba, mul_comba_gen. rewrite Z0. reflexivity.
Qed.

Lemma wf_skipn hB a s : wf a -> wf (mkmpi s (skipn hB (dg a))).
Proof. intros [Ha Na]. split; cbn [dg]; [apply digits_skipn; auto|apply normal_skipn; auto]. Qed.
Lemma wf_adj s l : digits l -> wf (mkmpi s (adjust l)).
Proof. intros H. split; cbn [dg]; auto. Qed.
Global Hint Resolve wf_skipn wf_adj : core.

Lemma two_pow k : 0 <= k -> 2 * B ^ k <= B ^ (k + 1).
Proof.
  intro. rewrite Z.pow_add_r, Z.pow_1_r by lia. pose proof (Z.pow_pos_nonneg B k B_pos ltac:(lia)).
  rewrite Z.mul_comm. apply Z.mul_le_mono_nonneg_l; [lia|]. unfold B; lia.
Qed.

Lemma add_lt_pow x y n : x < B ^ Z.of_nat n -> y < B ^ Z.of_nat n ->
  x + y < B ^ (Z.of_nat n + Z.of_nat 1).
Proof. intros. pose proof (two_pow (Z.of_nat n) (Zle_0_nat n)). change (Z.of_nat 1) with 1. lia. Qed.

Lemma split_lt hB l : digits l -> (2 * hB <= length l)%nat ->
  val (skipn hB l) < B ^ Z.of_nat (length l - hB) /\ val (firstn hB l) < B ^ Z.of_nat (length l - hB).
Proof.
  intros Hd HL. split.
  - pose proof (val_lt _ (digits_skipn hB l Hd)). rewrite skipn_length in H. auto.
  - pose proof (val_lt _ (digits_firstn hB l Hd)). rewrite firstn_length_le in H by lia.
    apply Z.lt_le_trans with (B ^ Z.of_nat hB); auto. apply Z.pow_le_mono_r; [auto|lia].
Qed.

Lemma used_adj_firstn hB a s : (used (mkmpi s (adjust (firstn hB (dg a)))) <= hB)%nat.
Proof.
  unfold used. cbn [dg]. pose proof (adjust_length (firstn hB (dg a))). 
  pose proof (firstn_le_length hB (dg a)). lia.
Qed.

Ltac op_step L r :=
  let W := fresh "W" r in let V := fresh "V" r in let E := fresh "E" in let C := fresh "C" r in
  edestruct L as (r & E & W & V & C); [..|rewrite E; cbn [bind]; clear E].

Lemma karatsuba_ok f a b : wf a -> wf b ->
  let h := Nat.div2 (Nat.min (used a) (used b)) in
  (forall x y, wf x -> wf y -> neg x = false -> neg y = false ->
     (used x <= used a - h + 1)%nat -> (used y <= used b - h + 1)%nat -> mulabs_spec f false x y) ->
  exists r, karatsuba f a b = Ok r /\ wf r /\ val (dg r) = val (dg a) * val (dg b) /\
    mval r = val (dg a) * val (dg b) /\ ((is_zero a || is_zero b)%bool = true -> r = mzero).
Proof.
  intros Wa Wb h Hf. unfold karatsuba.
  destruct (is_zero a || is_zero b)%bool eqn:EZ.
  { exists mzero. apply orb_true_iff in EZ. rewrite !is_zero_val in EZ by auto.
    assert (val (dg a) * val (dg b) = 0) by (destruct EZ as [E|E]; apply Z.eqb_eq in E; rewrite E; ring).
    repeat split; auto; cbn [dg mzero val]; try lia; unfold mval; cbn; lia. }
  fold h.
  assert (Hh : (2 * h <= used a /\ 2 * h <= used b)%nat).
  { unfold h. rewrite Nat.div2_div. pose proof (Nat.div_mod (Nat.min (used a) (used b)) 2 ltac:(lia)). lia. }
  unfold used in Hh.
  assert (Va : val (dg a) = val (firstn h (dg a)) + B ^ Z.of_nat h * val (skipn h (dg a))) by (apply val_firstn_skipn; lia).
  assert (Vb : val (dg b) = val (firstn h (dg b)) + B ^ Z.of_nat h * val (skipn h (dg b))) by (apply val_firstn_skipn; lia).
  destruct (split_lt h (dg a) (proj1 Wa) ltac:(lia)) as [La1 La0].
  destruct (split_lt h (dg b) (proj1 Wb) ltac:(lia)) as [Lb1 Lb0].
  pose proof (used_adj_firstn h a false) as Ua0. pose proof (used_adj_firstn h b false) as Ub0.
  assert (Ua1 : used (mkmpi false (skipn h (dg a))) = (used a - h)%nat) by (unfold used; cbn [dg]; apply skipn_length).
  assert (Ub1 : used (mkmpi false (skipn h (dg b))) = (used b - h)%nat) by (unfold used; cbn [dg]; apply skipn_length).
  assert (Wx0 : wf (mkmpi false (adjust (firstn h (dg a))))) by (apply wf_adj, digits_firstn, Wa).
  assert (Wy0 : wf (mkmpi false (adjust (firstn h (dg b))))) by (apply wf_adj, digits_firstn, Wb).
  assert (Wx1 : wf (mkmpi false (skipn h (dg a)))) by (apply wf_skipn; auto).
  assert (Wy1 : wf (mkmpi false (skipn h (dg b)))) by (apply wf_skipn; auto).
  set (x0 := mkmpi false (adjust (firstn h (dg a)))) in *.
  set (y0 := mkmpi false (adjust (firstn h (dg b)))) in *.
  set (x1 := mkmpi false (skipn h (dg a))) in *.
  set (y1 := mkmpi false (skipn h (dg b))) in *.
  assert (Mx0 : mval x0 = val (firstn h (dg a))) by (unfold mval, x0; cbn [neg dg]; apply adjust_val).
  assert (My0 : mval y0 = val (firstn h (dg b))) by (unfold mval, y0; cbn [neg dg]; apply adjust_val).
  assert (Mx1 : mval x1 = val (skipn h (dg a))) by reflexivity.
  assert (My1 : mval y1 = val (skipn h (dg b))) by reflexivity.
  pose proof (val_nonneg _ (digits_firstn h _ (proj1 Wa))) as Pa0.
  pose proof (val_nonneg _ (digits_skipn h _ (proj1 Wa))) as Pa1.
  pose proof (val_nonneg _ (digits_firstn h _ (proj1 Wb))) as Pb0.
  pose proof (val_nonneg _ (digits_skipn h _ (proj1 Wb))) as Pb1.
  assert (Dx0 : val (dg x0) = mval x0) by reflexivity. assert (Dx1 : val (dg x1) = mval x1) by reflexivity.
  assert (Dy0 : val (dg y0) = mval y0) by reflexivity. assert (Dy1 : val (dg y1) = mval y1) by reflexivity.
  unfold used in *.
  destruct (Hf x0 y0 Wx0 Wy0 eq_refl eq_refl ltac:(lia) ltac:(lia)) as (z0 & -> & Wz0 & _ & Mz0 & _). cbn [bind].
  destruct (Hf x1 y1 Wx1 Wy1 eq_refl eq_refl ltac:(lia) ltac:(lia)) as (z2 & -> & Wz2 & _ & Mz2 & _). cbn [bind].
  specialize (Mz0 eq_refl eq_refl eq_refl). specialize (Mz2 eq_refl eq_refl eq_refl).
  destruct (add_abs_spec x1 x0 Wx1 Wx0) as (Wsx & Vsx & Nsx).
  replace (add x1 x0) with (Ok (set_sign false (add_abs x1 x0))) by reflexivity.
  destruct (add_abs_spec y1 y0 Wy1 Wy0) as (Wsy & Vsy & Nsy).
  replace (add y1 y0) with (Ok (set_sign false (add_abs y1 y0))) by reflexivity.
  cbn [bind].
  set (sx := set_sign false (add_abs x1 x0)). set (sy := set_sign false (add_abs y1 y0)).
  assert (Wsx' : wf sx) by exact Wsx. assert (Wsy' : wf sy) by exact Wsy.
  assert (Usx : (used sx <= used a - h + 1)%nat).
  { apply used_le; auto. unfold sx. cbn [set_sign dg]. rewrite Vsx, Dx0, Dx1, Mx0, Mx1.
    unfold used. rewrite Nat2Z.inj_add. apply (add_lt_pow _ _ _ La1 La0). }
  assert (Usy : (used sy <= used b - h + 1)%nat).
  { apply used_le; auto. unfold sy. cbn [set_sign dg]. rewrite Vsy, Dy0, Dy1, My0, My1.
    unfold used. rewrite Nat2Z.inj_add. apply (add_lt_pow _ _ _ Lb1 Lb0). }
  destruct (Hf sx sy Wsx' Wsy' eq_refl eq_refl Usx Usy) as (z1 & -> & Wz1 & _ & Mz1 & _). cbn [bind].
  specialize (Mz1 eq_refl eq_refl eq_refl).
  unfold sx, sy in Mz1. cbn [set_sign dg] in Mz1. rewrite Vsx, Vsy in Mz1.
  clear Wsx Vsx Nsx Wsy Vsy Nsy Usx Usy Wsx' Wsy' sx sy.
  destruct (add_spec z0 z2 Wz0 Wz2) as (t & -> & Wt & Mt & _). cbn [bind].
  destruct (sub_spec z1 t Wz1 Wt) as (u & -> & Wu & Mu & _). cbn [bind].
  destruct (shld_spec u h Wu) as (Wu' & Nu' & Vu').
  destruct (shld_spec z2 (2 * h) Wz2) as (Wz2' & Nz2' & Vz2').
  assert (Mu' : mval (shld u h) = mval u * B ^ Z.of_nat h).
  { unfold mval. rewrite Nu', Vu'. destruct (neg u); ring. }
  assert (Mz2'' : mval (shld z2 (2 * h)) = mval z2 * (B ^ Z.of_nat h * B ^ Z.of_nat h)).
  { unfold mval. rewrite Nz2', Vz2'. replace (Z.of_nat (2 * h)) with (Z.of_nat h + Z.of_nat h) by lia.
    rewrite Z.pow_add_r by lia. destruct (neg z2); ring. }
  destruct (add_spec z0 (shld u h) Wz0 Wu') as (v & -> & Wv & Mv & _). cbn [bind].
  destruct (add_spec v (shld z2 (2 * h)) Wv Wz2') as (r & Er & Wr & Mr & _).
  change (h + (h + 0))%nat with (2 * h)%nat. rewrite Er.
  assert (MR : mval r = val (dg a) * val (dg b)).
  { rewrite Mr, Mv, Mz2'', Mu', Mu, Mt, Mz1, Mz0, Mz2, Va, Vb, !Dx0, !Dx1, !Dy0, !Dy1, !Mx0, !Mx1, !My0, !My1. ring. }
  exists r. split; [reflexivity|]. split; auto. split; [|split; [exact MR|discriminate]].
  rewrite <- abs_mval by auto. rewrite MR. apply Z.abs_eq.
  apply Z.mul_nonneg_nonneg; apply val_nonneg; [apply Wa|apply Wb].
Qed.
