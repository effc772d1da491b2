(** Correctness of exponentiation, gcd, lcm, inverse, square root. *)
From Coq Require Import Znumtheory.
From Verif Require Import Base Bits MpiModel MpiSpec MpiDigits MpiMulModel MpiMul MpiMul2 MpiSqr MpiCanon MpiDivModel MpiDiv MpiAlgModel.

Ltac Zify.zify_post_hook ::= idtac.

(** *** Bit tests *)
Lemma land_bit d k : 0 <= k -> negb (Z.land d (Z.shiftl 1 k) =? 0) = Z.testbit d k.
Proof.
  intro Hk. rewrite Z.shiftl_1_l.
  assert (E : Z.land d (2 ^ k) = if Z.testbit d k then 2 ^ k else 0).
  { apply Z.bits_inj'. intros i Hi. rewrite Z.land_spec, Z.pow2_bits_eqb by lia.
    destruct (Z.eqb_spec k i) as [<-|N].
    - rewrite andb_true_r. destruct (Z.testbit d k) eqn:T; [rewrite Z.pow2_bits_true by lia; auto|rewrite Z.bits_0; auto].
    - rewrite andb_false_r. destruct (Z.testbit d k); [rewrite Z.pow2_bits_false by lia; auto|rewrite Z.bits_0; auto]. }
  rewrite E. pose proof (pow2_pos k Hk). destruct (Z.testbit d k); [|reflexivity].
  destruct (Z.eqb_spec (2 ^ k) 0); [lia|reflexivity].
Qed.

Lemma val_testbit l : forall i, digits l -> 0 <= i ->
  Z.testbit (val l) i = Z.testbit (nth (Z.to_nat (i / 64)) l 0) (i mod 64).
Proof.
  induction l as [|d l IH]; intros i D Hi.
  - cbn [val]. rewrite Z.bits_0. destruct (Z.to_nat (i / 64)); cbn [nth]; rewrite Z.bits_0; reflexivity.
  - apply digits_cons in D as [Hd D]. cbn [val].
    pose proof (Z.div_mod i 64 ltac:(lia)) as DM. pose proof (Z.mod_pos_bound i 64 ltac:(lia)) as MB.
    destruct (Z.lt_ge_cases i 64) as [L|L].
    + rewrite Z.div_small, Z.mod_small by lia. cbn [Z.to_nat nth].
      rewrite <- (Z.mod_pow2_bits_low (d + B * val l) 64 i) by lia.
      change (2 ^ 64) with B. rewrite Z.mul_comm, Z.mod_add by (pose proof B_pos; lia). rewrite Z.mod_small; auto.
    + assert (E : Z.to_nat (i / 64) = S (Z.to_nat ((i - 64) / 64))).
      { replace ((i - 64) / 64) with (i / 64 - 1).
        - assert (1 <= i / 64) by (apply Z.div_le_lower_bound; lia). lia.
        - replace (i - 64) with (i + (-1) * 64) by lia. rewrite Z.div_add by lia. lia. }
      rewrite E. cbn [nth]. replace (i mod 64) with ((i - 64) mod 64).
      2:{ replace (i - 64) with (i + (-1) * 64) by lia. apply Z.mod_add. lia. }
      rewrite <- IH by (auto; lia).
      replace i with ((i - 64) + 64) at 1 by lia. rewrite <- Z.div_pow2_bits by lia. f_equal.
      change (2 ^ 64) with B. rewrite (Z.mul_comm B), Z.div_add by (pose proof B_pos; lia).
      rewrite Z.div_small by auto. lia.
Qed.

Lemma is_bit_set_ok a i : wf a -> 0 <= i < 64 * Z.of_nat (used a) ->
  is_bit_set a i = Ok (Z.testbit (Z.abs (mval a)) i).
Proof.
  intros W Hi. unfold is_bit_set.
  assert (H1 : 0 <= i / 64) by (apply Z.div_pos; lia).
  assert (H2 : i / 64 < Z.of_nat (used a)) by (apply Z.div_lt_upper_bound; lia).
  destruct (Nat.ltb_spec (Z.to_nat (i / 64)) (used a)) as [L|L]; [|lia].
  f_equal. rewrite land_bit by (apply Z.mod_pos_bound; lia).
  rewrite abs_mval, val_testbit by (auto; try apply W; lia). reflexivity.
Qed.

Lemma count_bits_used a : wf a -> count_bits a <= 64 * Z.of_nat (used a).
Proof.
  intros [D N]. unfold count_bits, used. destruct (dg a) as [|d l] eqn:E; [cbn; lia|].
  pose proof (last_digit _ D) as LD. rewrite digit_bits_ok by auto.
  destruct (Z.eqb_spec (last (d :: l) 0) 0); [lia|].
  assert (Z.log2 (last (d :: l) 0) < 64) by (apply Z.log2_lt_pow2; [lia|rewrite <- B_pow2; lia]). lia.
Qed.

Lemma is_bit_set_ofZ e i : 0 <= i < count_bits (ofZ e) -> is_bit_set (ofZ e) i = Ok (Z.testbit (Z.abs e) i).
Proof.
  intro H. rewrite is_bit_set_ok; auto.
  - rewrite mval_ofZ. reflexivity.
  - pose proof (count_bits_used (ofZ e)). assert (wf (ofZ e)) by auto. specialize (H0 H1). lia.
Qed.

Lemma sqr_ofZ x : sqr false (ofZ x) = Ok (ofZ (x * x)).
Proof.
  destruct (sqr_f_ok (S (used (ofZ x))) false (ofZ x)) as (r & E & W & V & M & N & _); [auto|lia|].
  unfold sqr. rewrite E. f_equal. specialize (M eq_refl). rewrite ofZ_val in M.
  assert (MM : mval r = x * x) by (rewrite M; lia).
  apply is_ofZ; auto. split; auto. intro Z0.
  destruct N as [N|N]; auto. destruct (sqr_f_ok (S (used (ofZ x))) false (ofZ x)) as (r' & E' & _ & _ & _ & _ & S1 & S2); [auto|lia|].
  rewrite E in E'. injection E' as <-.
  destruct (le_lt_dec (used (ofZ x)) 64) as [L|L].
  - destruct (S1 L) as [->|]; auto.
  - exfalso. rewrite Z0 in V. cbn [val] in V. rewrite ofZ_val in V. assert (x = 0) by lia. subst. cbn in L. lia.
Qed.

(** *** Exponentiation *)
Lemma testbit_div e k : 0 <= e -> 0 <= k -> e / 2 ^ k = 2 * (e / 2 ^ (k + 1)) + Z.b2z (Z.testbit e k).
Proof.
  intros He Hk. rewrite Z.testbit_spec' by auto. rewrite Z.pow_add_r, Z.pow_1_r by lia.
  rewrite <- Z.div_div by (try lia; apply Z.pow_nonzero; lia). apply Z.div_mod. lia.
Qed.

Definition red_spec (m : option Z) (x : Z) : Z := match m with None => x | Some m => x mod m end.
Definition okmod (m : option Z) : Prop := match m with None => True | Some m => 0 < m end.

Lemma reduce_ofZ m x : okmod m -> reduce (option_map ofZ m) (ofZ x) = Ok (ofZ (red_spec m x)).
Proof. destruct m as [m|]; cbn; intro H; [apply mod_ofZ; auto|reflexivity]. Qed.

Lemma red_nonneg m x : okmod m -> 0 <= x -> 0 <= red_spec m x.
Proof. destruct m as [m|]; cbn; intros; auto. apply Z.mod_pos_bound; auto. Qed.

(** [x] is congruent to [y] modulo [m] (equal when there is no modulus). *)
Definition cong (m : option Z) (x y : Z) : Prop := red_spec m x = red_spec m y.

Lemma cong_red m x : cong m (red_spec m x) x.
Proof. unfold cong. destruct m as [m|]; cbn; [apply Zmod_mod|reflexivity]. Qed.
Lemma cong_mul m a b c d : cong m a b -> cong m c d -> cong m (a * c) (b * d).
Proof. unfold cong. destruct m as [m|]; cbn; intros H1 H2; [rewrite Zmult_mod, H1, H2, <- Zmult_mod; reflexivity|congruence]. Qed.
Lemma cong_trans m a b c : cong m a b -> cong m b c -> cong m a c.
Proof. unfold cong. congruence. Qed.

Lemma me_loop_ok m b e : okmod m -> 0 <= e -> forall k x,
  Z.of_nat k <= count_bits (ofZ e) -> cong m x (b ^ (e / 2 ^ Z.of_nat k)) ->
  exists r, me_loop k (ofZ b) (ofZ e) (option_map ofZ m) (ofZ x) = Ok (ofZ r) /\ cong m r (b ^ e) /\
    ((0 < k)%nat -> red_spec m r = r) /\ (k = O -> r = x).
Proof.
  intros Hm He. induction k as [|k IH]; intros x Hk HC; cbn [me_loop].
  - exists x. rewrite Z.div_1_r in HC. repeat split; auto. lia.
  - rewrite sqr_ofZ. cbn [bind]. rewrite reduce_ofZ by auto. cbn [bind].
    rewrite is_bit_set_ofZ by lia. rewrite Z.abs_eq by auto. cbn [bind].
    set (x1 := red_spec m (x * x)).
    pose proof (testbit_div e (Z.of_nat k) He ltac:(lia)) as TB.
    replace (Z.of_nat k + 1) with (Z.of_nat (S k)) in TB by lia.
    assert (PE : 0 <= e / 2 ^ Z.of_nat (S k)) by (apply Z.div_pos; [auto|apply pow2_pos; lia]).
    assert (C1 : cong m x1 (b ^ (2 * (e / 2 ^ Z.of_nat (S k))))).
    { eapply cong_trans; [apply cong_red|]. rewrite (Z.mul_comm 2), Z.pow_mul_r, Z.pow_2_r by lia. apply cong_mul; auto. }
    assert (R1 : red_spec m x1 = x1) by (unfold x1; destruct m; cbn; [apply Zmod_mod|reflexivity]).
    destruct (Z.testbit e (Z.of_nat k)); cbn [Z.b2z] in TB.
    + rewrite mul_ofZ. cbn [bind]. rewrite reduce_ofZ by auto. cbn [bind].
      destruct (IH (red_spec m (x1 * b))) as (r & E & C & R & K).
      * clear - Hk. lia.
      * eapply cong_trans; [apply cong_red|]. rewrite TB, Z.pow_add_r, Z.pow_1_r by (clear - PE; lia). apply cong_mul; auto. reflexivity.
      * exists r. repeat split; auto; [|discriminate]. intros _. destruct k; [|apply R; lia].
        rewrite (K eq_refl). destruct m; cbn; [apply Zmod_mod|reflexivity].
    + destruct (IH x1) as (r & E & C & R & K).
      * clear - Hk. lia.
      * rewrite TB, Z.add_0_r. auto.
      * exists r. repeat split; auto; [|discriminate]. intros _. destruct k; [|apply R; lia].
        rewrite (K eq_refl). auto.
Qed.

Lemma count_bits_spec z : 0 <= z -> 0 <= count_bits (ofZ z) /\ z < 2 ^ count_bits (ofZ z) /\ (0 < z -> 0 < count_bits (ofZ z)).
Proof.
  intro H. rewrite count_bits_ofZ, Z.abs_eq by auto. destruct (Z.eqb_spec z 0) as [->|N].
  - rewrite Z.pow_0_r. lia.
  - pose proof (Z.log2_spec z ltac:(lia)). pose proof (Z.log2_nonneg z). unfold Z.succ in *. repeat split; lia.
Qed.

Lemma exp_gen_ok m b e : okmod m -> 0 <= e -> m <> Some 1 \/ 0 < e ->
  mod_exp_gen (ofZ b) (ofZ e) (option_map ofZ m) = Ok (ofZ (red_spec m (b ^ e))).
Proof.
  intros Hm He HX. unfold mod_exp_gen. rewrite ofZ_neg. destruct (Z.ltb_spec e 0); [lia|]. cbn [orb].
  assert (NM : match option_map ofZ m with Some m0 => neg m0 | None => false end = false).
  { destruct m as [m|]; [cbn in Hm; cbn [option_map]; rewrite ofZ_neg; lia|reflexivity]. }
  rewrite NM. destruct (count_bits_spec e He) as (CB0 & CB1 & CB2).
  destruct (me_loop_ok m b e Hm He (Z.to_nat (count_bits (ofZ e))) 1) as (r & E & C & R & K); try lia.
  - rewrite Z2Nat.id by auto. rewrite Z.div_small by lia. reflexivity.
  - rewrite <- ofZ_1, E. do 2 f_equal. unfold cong in C. rewrite <- C. symmetry.
    destruct (Z.eq_dec e 0) as [->|NE]; [|apply R; lia].
    rewrite K by reflexivity. destruct m as [m|]; [|reflexivity]. cbn in *. apply Z.mod_small.
    destruct HX as [HX|]; [|lia]. assert (m <> 1) by congruence. lia.
Qed.

Lemma mod_exp_ofZ b e m : 0 <= e -> 1 < m -> mod_exp (ofZ b) (ofZ e) (ofZ m) = Ok (ofZ (b ^ e mod m)).
Proof.
  intros He Hm. apply (exp_gen_ok (Some m)); cbn; auto; try lia. left. intro H. injection H. lia.
Qed.

Lemma mod_exp_exact b e m : canon b -> canon e -> canon m -> 0 <= mval e -> 0 < mval m ->
  1 < mval m \/ 0 < mval e ->
  exists r, mod_exp b e m = Ok r /\ canon r /\ mval r = mval b ^ mval e mod mval m.
Proof.
  intros Cb Ce Cm He Hm HX. exists (ofZ (mval b ^ mval e mod mval m)). rewrite mval_ofZ. split; [|auto].
  rewrite (canon_is_ofZ b), (canon_is_ofZ e), (canon_is_ofZ m), !mval_ofZ by auto.
  apply (exp_gen_ok (Some (mval m))); cbn; auto.
  destruct HX; [left; intro H0; injection H0; lia|right; auto].
Qed.

Lemma exp_exact b e : canon b -> canon e -> 0 <= mval e ->
  exists r, exp b e = Ok r /\ canon r /\ mval r = mval b ^ mval e.
Proof.
  intros Cb Ce He. exists (ofZ (mval b ^ mval e)). rewrite mval_ofZ. split; [|auto].
  rewrite (canon_is_ofZ b), (canon_is_ofZ e), !mval_ofZ by auto.
  apply (exp_gen_ok None); cbn; auto. left. discriminate.
Qed.

Lemma mod_exp_err b e m : canon e -> canon m -> mval e < 0 \/ mval m < 0 -> mod_exp b e m = Err (-1).
Proof.
  intros Ce Cm H. unfold mod_exp, mod_exp_gen. rewrite (canon_neg e Ce), (canon_neg m Cm).
  destruct (Z.ltb_spec (mval e) 0), (Z.ltb_spec (mval m) 0); try lia; reflexivity.
Qed.

(** *** Greatest common divisor *)
Lemma ctz_ok n : forall j d, 0 <= j -> 0 <= d -> (exists i, 0 <= i < Z.of_nat n /\ Z.testbit d (j + i) = true) ->
  0 <= ctz n j d < Z.of_nat n /\ Z.testbit d (j + ctz n j d) = true /\
  (forall i, 0 <= i < ctz n j d -> Z.testbit d (j + i) = false).
Proof.
  induction n as [|n IH]; intros j d Hj Hd (i & Hi & Ti); [lia|]. cbn [ctz].
  assert (E : (Z.land (Z.shiftr d j) 1 =? 0) = negb (Z.testbit d j)).
  { change 1 with (Z.ones 1). rewrite Z.land_ones by lia. change (2 ^ 1) with 2.
    rewrite <- Z.bit0_mod, Z.shiftr_spec by lia. rewrite Z.add_0_l. destruct (Z.testbit d j); reflexivity. }
  rewrite E. destruct (Z.testbit d j) eqn:T; cbn [negb].
  - rewrite Z.add_0_r. repeat split; auto; try lia.
  - destruct (IH (j + 1) d) as (A & T' & F); try lia.
    { exists (i - 1). destruct (Z.eq_dec i 0) as [->|]; [rewrite Z.add_0_r in Ti; congruence|].
      split; [lia|]. replace (j + 1 + (i - 1)) with (j + i) by lia. auto. }
    split; [lia|]. split; [replace (j + (1 + ctz n (j + 1) d)) with (j + 1 + ctz n (j + 1) d) by lia; auto|].
    intros k Hk. destruct (Z.eq_dec k 0) as [->|]; [rewrite Z.add_0_r; auto|].
    replace (j + k) with (j + 1 + (k - 1)) by lia. apply F. lia.
Qed.

Lemma low_zero d k : 0 <= k -> (forall i, 0 <= i < k -> Z.testbit d i = false) -> d = 2 ^ k * (d / 2 ^ k).
Proof.
  intros Hk F. pose proof (pow2_pos k Hk). pose proof (Z.div_mod d (2 ^ k) ltac:(lia)).
  assert (d mod 2 ^ k = 0); [|lia].
  apply Z.bits_inj'. intros i Hi. rewrite Z.bits_0. destruct (Z.lt_ge_cases i k).
  - rewrite Z.mod_pow2_bits_low by lia. apply F. lia.
  - rewrite Z.mod_pow2_bits_high by lia. reflexivity.
Qed.

Lemma ctz64 d : 0 < d < B -> exists o, 0 <= ctz 64 0 d /\ d = 2 ^ ctz 64 0 d * o /\ Z.odd o = true.
Proof.
  intro Hd. destruct (ctz_ok 64 0 d) as (A & T & F); try lia.
  { exists (Z.log2 d). pose proof (Z.log2_nonneg d). split.
    - assert (Z.log2 d < 64) by (apply Z.log2_lt_pow2; [lia|rewrite <- B_pow2; lia]). lia.
    - rewrite Z.add_0_l. apply Z.bit_log2. lia. }
  rewrite !Z.add_0_l in *. exists (d / 2 ^ ctz 64 0 d). split; [lia|]. split.
  - apply low_zero; [lia|]. intros i Hi. rewrite <- (F i Hi). f_equal.
  - rewrite <- T, Z.testbit_odd, Z.shiftr_div_pow2 by lia. reflexivity.
Qed.

Lemma lsb_list_ok junk l : digits l -> 0 < val l ->
  exists o, 0 <= lsb_list l junk /\ val l = 2 ^ lsb_list l junk * o /\ Z.odd o = true /\ 0 < o.
Proof.
  induction l as [|d l IH]; intros D V; [cbn in V; lia|].
  apply digits_cons in D as [Hd D]. cbn [lsb_list val] in *. destruct (Z.eqb_spec d 0) as [->|N].
  - destruct IH as (o & P & E & O & PO); auto. { pose proof B_pos. nia. }
    exists o. split; [lia|]. split; auto. rewrite Z.pow_add_r by lia. rewrite E at 1. change (2 ^ 64) with B. ring.
  - destruct (ctz64 d ltac:(lia)) as (o & P & E & O).
    pose proof (pow2_pos _ P) as PP.
    assert (K : ctz 64 0 d < 64).
    { destruct (Z.lt_ge_cases (ctz 64 0 d) 64) as [|L]; auto. exfalso.
      assert (2 ^ 64 <= 2 ^ ctz 64 0 d) by (apply Z.pow_le_mono_r; lia). change (2 ^ 64) with B in H.
      assert (0 < o) by nia. nia. }
    assert (EB : B = 2 ^ ctz 64 0 d * (2 * 2 ^ (63 - ctz 64 0 d))).
    { rewrite <- Z.pow_succ_r, <- Z.pow_add_r by lia. rewrite B_pow2. f_equal. lia. }
    exists (o + 2 * (2 ^ (63 - ctz 64 0 d) * val l)). split; auto. split; [rewrite E at 1; rewrite EB at 1; ring|].
    split; [rewrite Z.odd_add, Z.odd_mul, O; reflexivity|].
    assert (0 < o) by nia. pose proof (val_nonneg l D). assert (0 < 2 ^ (63 - ctz 64 0 d)) by (apply pow2_pos; lia).
    assert (0 <= 2 ^ (63 - ctz 64 0 d) * val l) by (apply Z.mul_nonneg_nonneg; lia). lia.
Qed.

Lemma lsb_ofZ junk x : 0 < x -> exists o, 0 <= lsb (ofZ x) junk /\ x = 2 ^ lsb (ofZ x) junk * o /\ Z.odd o = true /\ 0 < o.
Proof.
  intro H. pose proof (ofZ_val x) as V. rewrite Z.abs_eq in V by lia. unfold lsb.
  destruct (lsb_list_ok junk (dg (ofZ x))) as (o & P & E & O); [apply (canon_wf _ (canon_ofZ x))|lia|].
  exists o. rewrite <- V at 2. auto.
Qed.

Lemma gcd_odd_2 a b : Z.odd b = true -> Z.gcd (2 * a) b = Z.gcd a b.
Proof.
  intro O. apply Z.divide_antisym_nonneg; try apply Z.gcd_nonneg.
  - apply Z.gcd_greatest; [|apply Z.gcd_divide_r].
    apply (Z.gauss _ 2); [apply Z.gcd_divide_l|].
    set (g := Z.gcd (2 * a) b). assert (Hg : (g | b)) by apply Z.gcd_divide_r.
    destruct (Z.gcd_divide_r g 2) as [k Hk]. pose proof (Z.gcd_nonneg g 2) as G0.
    destruct (Z.eq_dec (Z.gcd g 2) 2) as [E|N].
    + exfalso. destruct (Z.gcd_divide_l g 2) as [k1 Hk1]. rewrite E in Hk1. destruct Hg as [k2 Hk2].
      assert (b = 2 * (k2 * k1)) by (rewrite Hk2, Hk1; ring). rewrite H, Z.odd_mul in O. discriminate.
    + assert (Z.gcd g 2 <> 0) by (intro E; rewrite E in Hk; lia).
      assert (Z.gcd g 2 <= 2) by (apply Z.divide_pos_le; [lia|apply Z.gcd_divide_r]). lia.
  - apply Z.gcd_greatest; [|apply Z.gcd_divide_r]. apply Z.divide_mul_r, Z.gcd_divide_l.
Qed.

Lemma gcd_odd_pow k a b : 0 <= k -> Z.odd b = true -> Z.gcd (2 ^ k * a) b = Z.gcd a b.
Proof.
  intros Hk O. revert k Hk. apply natlike_ind; [rewrite Z.pow_0_r, Z.mul_1_l; auto|].
  intros k Hk IH. rewrite Z.pow_succ_r, <- Z.mul_assoc, gcd_odd_2 by auto. auto.
Qed.

Lemma odd_gcd_strip i j a b : 0 <= i -> 0 <= j -> Z.odd a = true -> Z.odd b = true ->
  i = 0 \/ j = 0 -> Z.gcd (2 ^ i * a) (2 ^ j * b) = Z.gcd a b.
Proof.
  intros Hi Hj Oa Ob [->| ->]; rewrite Z.pow_0_r, Z.mul_1_l.
  - rewrite Z.gcd_comm, gcd_odd_pow, Z.gcd_comm; auto.
  - apply gcd_odd_pow; auto.
Qed.

Lemma odd_sub_half a b : Z.odd a = true -> Z.odd b = true -> a - b = 2 * ((a - b) / 2).
Proof.
  intros Oa Ob. assert ((a - b) mod 2 = 0) by (rewrite Zmod_odd, Z.odd_sub, Oa, Ob; reflexivity).
  apply Z_div_exact_full_2; auto; lia.
Qed.

Lemma sub_abs_ofZ x y : 0 <= y <= x -> sub_abs (ofZ x) (ofZ y) = Ok (ofZ (x - y)).
Proof.
  intro H. destruct (sub_abs_spec (ofZ x) (ofZ y)) as (r & E & W & N & V); auto; [rewrite !ofZ_val; lia|].
  rewrite E. f_equal. apply is_ofZ; [apply wf_canon; auto|]. unfold mval. rewrite N, V, !ofZ_val. lia.
Qed.

Lemma pow_odd_0 k o : 0 <= k -> Z.odd (2 ^ k * o) = true -> k = 0.
Proof.
  intros Hk O. destruct (Z.eq_dec k 0); auto. exfalso. replace k with (Z.succ (k - 1)) in O by lia.
  rewrite Z.pow_succ_r, <- Z.mul_assoc, Z.odd_mul in O by lia. discriminate.
Qed.

Lemma gcd_loop_ok jx jy f : forall tx ty, 0 <= tx -> 0 < ty -> Z.odd tx = true \/ Z.odd ty = true ->
  tx * ty < 2 ^ Z.of_nat f -> gcd_loop (S f) jx jy (ofZ tx) (ofZ ty) = Ok (ofZ (Z.gcd tx ty)).
Proof.
  induction f as [|f IH]; intros tx ty Px Py O HF.
  - change (Z.of_nat 0) with 0 in HF. rewrite Z.pow_0_r in HF. assert (tx = 0) by nia. subst tx.
    cbn [gcd_loop]. rewrite is_zero_ofZ. cbn [Z.eqb]. rewrite Z.gcd_0_l, Z.abs_eq by lia. reflexivity.
  - assert (E : gcd_loop (S (S f)) jx jy (ofZ tx) (ofZ ty) =
      if is_zero (ofZ tx) then Ok (ofZ ty) else
      let tx' := shr (ofZ tx) (lsb (ofZ tx) jx) in let ty' := shr (ofZ ty) (lsb (ofZ ty) jy) in
      if 0 <=? cmp_abs tx' ty' then do t <- sub_abs tx' ty'; gcd_loop (S f) jx jy (shr t 1) ty'
      else do t <- sub_abs ty' tx'; gcd_loop (S f) jx jy tx' (shr t 1)) by reflexivity.
    rewrite E; clear E. rewrite is_zero_ofZ. destruct (Z.eqb_spec tx 0) as [->|NX].
    { rewrite Z.gcd_0_l, Z.abs_eq by lia. reflexivity. }
    cbv zeta. destruct (lsb_ofZ jx tx ltac:(lia)) as (a & Pi & Ea & Oa & Pa).
    destruct (lsb_ofZ jy ty ltac:(lia)) as (b & Pj & Eb & Ob & Pb).
    set (i := lsb (ofZ tx) jx) in *. set (j := lsb (ofZ ty) jy) in *. clearbody i j.
    rewrite (shr_ofZ tx) by lia. rewrite (shr_ofZ ty) by lia.
    pose proof (pow2_pos i Pi) as PPi. pose proof (pow2_pos j Pj) as PPj.
    replace (tx / 2 ^ i) with a by (rewrite Ea, Z.mul_comm, Z.div_mul; lia).
    replace (ty / 2 ^ j) with b by (rewrite Eb, Z.mul_comm, Z.div_mul; lia).
    assert (IJ : i = 0 \/ j = 0).
    { destruct O as [O|O]; [left; apply (pow_odd_0 i a Pi)|right; apply (pow_odd_0 j b Pj)]; [rewrite <- Ea|rewrite <- Eb]; auto. }
    assert (G : Z.gcd tx ty = Z.gcd a b) by (rewrite Ea, Eb; apply odd_gcd_strip; auto).
    rewrite G. clear G IJ.
    assert (PAB : a * b <= tx * ty) by (apply Z.mul_le_mono_nonneg; nia).
    rewrite Nat2Z.inj_succ, Z.pow_succ_r in HF by lia.
    rewrite cmp_abs_ofZ, !Z.abs_eq by lia.
    destruct (Z.leb_spec 0 (Z.sgn (a - b))) as [L|L].
    + rewrite sub_abs_ofZ by lia. cbn [bind]. rewrite shr_ofZ by lia. rewrite Z.pow_1_r.
      pose proof (odd_sub_half a b Oa Ob) as H2. set (c := (a - b) / 2) in *. clearbody c.
      rewrite IH; auto; try lia; [|nia]. do 2 f_equal.
      rewrite <- (gcd_odd_2 c b Ob), <- H2. 
      rewrite Z.gcd_comm, (Z.gcd_comm a b). apply Z.gcd_sub_diag_r.
    + rewrite sub_abs_ofZ by lia. cbn [bind]. rewrite shr_ofZ by lia. rewrite Z.pow_1_r.
      pose proof (odd_sub_half b a Ob Oa) as H2. set (c := (b - a) / 2) in *. clearbody c.
      rewrite IH; auto; try lia; [|nia]. do 2 f_equal.
      rewrite Z.gcd_comm, <- (gcd_odd_2 c a Oa), <- H2.
      rewrite Z.gcd_comm. apply Z.gcd_sub_diag_r.
Qed.

Lemma gcd_ofZ jx jy x y : 0 < x -> 0 < y -> gcd jx jy (ofZ x) (ofZ y) = Ok (ofZ (Z.gcd x y)).
Proof.
  intros Hx Hy. unfold gcd.
  destruct (lsb_ofZ jx x Hx) as (a & Pi & Ea & Oa & Pa). destruct (lsb_ofZ jy y Hy) as (b & Pj & Eb & Ob & Pb).
  set (i := lsb (ofZ x) jx) in *. set (j := lsb (ofZ y) jy) in *. clearbody i j.
  set (lz := Z.min i j). assert (Hlz : 0 <= lz) by lia. cbv zeta.
  rewrite (shr_ofZ x), (shr_ofZ y) by lia. pose proof (pow2_pos lz Hlz) as P2.
  assert (Ex : x / 2 ^ lz = 2 ^ (i - lz) * a).
  { rewrite Ea, (pow2_split i lz) by lia. rewrite <- Z.mul_assoc, Z.mul_comm, Z.div_mul by lia. reflexivity. }
  assert (Ey : y / 2 ^ lz = 2 ^ (j - lz) * b).
  { rewrite Eb, (pow2_split j lz) by lia. rewrite <- Z.mul_assoc, Z.mul_comm, Z.div_mul by lia. reflexivity. }
  assert (Gx : x = 2 ^ lz * (x / 2 ^ lz)) by (rewrite Ex; rewrite Ea at 1; rewrite (pow2_split i lz) by lia; ring).
  assert (Gy : y = 2 ^ lz * (y / 2 ^ lz)) by (rewrite Ey; rewrite Eb at 1; rewrite (pow2_split j lz) by lia; ring).
  pose proof (pow2_pos (i - lz) ltac:(lia)) as P3. pose proof (pow2_pos (j - lz) ltac:(lia)) as P4.
  assert (Px : 0 < x / 2 ^ lz) by (rewrite Ex; apply Z.mul_pos_pos; lia).
  assert (Py : 0 < y / 2 ^ lz) by (rewrite Ey; apply Z.mul_pos_pos; lia).
  rewrite gcd_loop_ok.
  - cbn [bind]. rewrite shl_ofZ by auto. do 2 f_equal. rewrite Gx at 2. rewrite Gy at 2.
    rewrite Z.gcd_mul_mono_l_nonneg by lia. ring.
  - lia.
  - lia.
  - rewrite Ex, Ey. destruct (Z.min_spec i j) as [[_ E]|[_ E]]; unfold lz; rewrite E; [left|right];
      rewrite Z.sub_diag, Z.pow_0_r, Z.mul_1_l; auto.
  - destruct (count_bits_spec x ltac:(lia)) as (C1 & C2 & _). destruct (count_bits_spec y ltac:(lia)) as (C3 & C4 & _).
    rewrite Z2Nat.id by lia. rewrite Z.pow_add_r by lia. 
    assert (x / 2 ^ lz <= x) by (apply Z.div_le_upper_bound; nia).
    assert (y / 2 ^ lz <= y) by (apply Z.div_le_upper_bound; nia).
    apply Z.mul_lt_mono_nonneg; lia.
Qed.

Lemma gcd_exact jx jy x y : canon x -> canon y -> 0 < mval x -> 0 < mval y ->
  exists r, gcd jx jy x y = Ok r /\ canon r /\ mval r = Z.gcd (mval x) (mval y).
Proof.
  intros Cx Cy Hx Hy. exists (ofZ (Z.gcd (mval x) (mval y))). rewrite mval_ofZ. split; auto.
  rewrite (canon_is_ofZ x), (canon_is_ofZ y), !mval_ofZ by auto. apply gcd_ofZ; auto.
Qed.

Lemma lcm_exact jx jy x y : canon x -> canon y -> 0 < mval x -> 0 < mval y ->
  exists r, lcm jx jy x y = Ok r /\ canon r /\ mval r = Z.lcm (mval x) (mval y).
Proof.
  intros Cx Cy Hx Hy. exists (ofZ (Z.lcm (mval x) (mval y))). rewrite mval_ofZ. split; auto.
  rewrite (canon_is_ofZ x), (canon_is_ofZ y), !mval_ofZ by auto.
  set (a := mval x) in *. set (b := mval y) in *. clearbody a b.
  unfold lcm. rewrite gcd_ofZ by auto. cbn [bind]. rewrite mul_ofZ. cbn [bind].
  assert (G : 0 < Z.gcd a b). { pose proof (Z.gcd_nonneg a b). destruct (Z.eq_dec (Z.gcd a b) 0) as [E|]; [apply Z.gcd_eq_0_l in E; lia|lia]. }
  destruct (div_ofZ_nr (a * b) (Z.gcd a b)) as (r & E); [nia|auto|]. rewrite E. cbn [bind]. do 2 f_equal.
  unfold Z.lcm. destruct (Z.gcd_divide_r a b) as [k Hk]. set (g := Z.gcd a b) in *. clearbody g. subst b.
  rewrite Z.mul_assoc, !Z.div_mul by lia. rewrite Z.abs_eq; auto. apply Z.mul_nonneg_nonneg; nia.
Qed.
