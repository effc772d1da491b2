(** Correctness of gcd on zero operands, modular inverse, square root and the
    word-sized inverse. *)
From Coq Require Import Znumtheory.
From Verif Require Import Base Bits MpiModel MpiSpec MpiDigits MpiMulModel MpiMul MpiMul2 MpiSqr MpiCanon MpiDivModel MpiDiv MpiAlgModel MpiAlg.

Ltac Zify.zify_post_hook ::= idtac.

(** *** gcd with a zero operand *)
Lemma ctz_nonneg n : forall j d, 0 <= ctz n j d.
Proof. induction n as [|n IH]; intros j d; cbn [ctz]; [lia|]. destruct (Z.land _ _ =? 0); [|lia]. specialize (IH (j + 1) d). lia. Qed.

Lemma gcd_loop_0 jx jy f : forall tx, 0 <= tx < 2 ^ Z.of_nat f -> gcd_loop (S f) jx jy (ofZ tx) (ofZ 0) = Ok (ofZ 0).
Proof.
  induction f as [|f IH]; intros tx H.
  - change (Z.of_nat 0) with 0 in H. rewrite Z.pow_0_r in H. replace tx with 0 by lia. reflexivity.
  - assert (E : gcd_loop (S (S f)) jx jy (ofZ tx) (ofZ 0) =
      if is_zero (ofZ tx) then Ok (ofZ 0) else
      let tx' := shr (ofZ tx) (lsb (ofZ tx) jx) in let ty' := shr (ofZ 0) (lsb (ofZ 0) jy) in
      if 0 <=? cmp_abs tx' ty' then do t <- sub_abs tx' ty'; gcd_loop (S f) jx jy (shr t 1) ty'
      else do t <- sub_abs ty' tx'; gcd_loop (S f) jx jy tx' (shr t 1)) by reflexivity.
    rewrite E; clear E. rewrite is_zero_ofZ. destruct (Z.eqb_spec tx 0) as [->|NX]; [reflexivity|].
    cbv zeta. destruct (lsb_ofZ jx tx ltac:(lia)) as (a & Pi & Ea & Oa & Pa).
    set (i := lsb (ofZ tx) jx) in *. clearbody i.
    rewrite (shr_ofZ tx) by lia. rewrite (shr_ofZ 0); [|apply ctz_nonneg|lia].
    pose proof (pow2_pos i Pi) as PPi.
    replace (tx / 2 ^ i) with a by (rewrite Ea, Z.mul_comm, Z.div_mul; lia).
    rewrite Z.div_0_l by (pose proof (pow2_pos (lsb (ofZ 0) jy) (ctz_nonneg _ _ _)); lia).
    rewrite Nat2Z.inj_succ, Z.pow_succ_r in H by lia.
    rewrite cmp_abs_ofZ. destruct (Z.leb_spec 0 (Z.sgn (Z.abs a - Z.abs 0))) as [L|L]; [|lia].
    rewrite sub_abs_ofZ by lia. cbn [bind]. rewrite shr_ofZ by lia. rewrite Z.pow_1_r, Z.sub_0_r.
    apply IH. split; [apply Z.div_pos; lia|]. apply Z.div_lt_upper_bound; [lia|]. nia.
Qed.

Lemma gcd_0_r jx jy x : 0 < x -> gcd jx jy (ofZ x) (ofZ 0) = Ok (ofZ 0).
Proof.
  intro Hx. unfold gcd. destruct (lsb_ofZ jx x Hx) as (a & Pi & Ea & Oa & Pa).
  pose proof (ctz_nonneg 64 0 jy : 0 <= lsb (ofZ 0) jy) as Pj.
  set (i := lsb (ofZ x) jx) in *. set (j := lsb (ofZ 0) jy) in *. clearbody i j.
  cbv zeta. set (lz := Z.min i j). assert (Hlz : 0 <= lz) by lia. pose proof (pow2_pos lz Hlz).
  rewrite !shr_ofZ by lia. rewrite Z.div_0_l by lia.
  rewrite gcd_loop_0; [cbn [bind]; rewrite shl_ofZ by auto; reflexivity|].
  destruct (count_bits_spec x ltac:(lia)) as (C1 & C2 & _).
  change (count_bits (ofZ 0)) with 0. rewrite Z.add_0_r, Z2Nat.id by lia.
  split; [apply Z.div_pos; lia|]. assert (x / 2 ^ lz <= x) by (apply Z.div_le_upper_bound; nia). lia.
Qed.

Lemma gcd_0_l jx jy y : 0 < y -> gcd jx jy (ofZ 0) (ofZ y) = Ok (ofZ y).
Proof.
  intro Hy. unfold gcd. destruct (lsb_ofZ jy y Hy) as (b & Pj & Eb & Ob & Pb).
  pose proof (ctz_nonneg 64 0 jx : 0 <= lsb (ofZ 0) jx) as Pi.
  set (i := lsb (ofZ 0) jx) in *. set (j := lsb (ofZ y) jy) in *. clearbody i j.
  cbv zeta. set (lz := Z.min i j). assert (Hlz : 0 <= lz) by lia. pose proof (pow2_pos lz Hlz).
  rewrite !shr_ofZ by lia. rewrite Z.div_0_l by lia. cbn [gcd_loop]. rewrite is_zero_ofZ. cbn [Z.eqb bind].
  rewrite shl_ofZ by auto. do 2 f_equal. rewrite Eb, (pow2_split j lz) by lia.
  rewrite <- Z.mul_assoc, (Z.mul_comm (2 ^ lz)), Z.div_mul by lia. ring.
Qed.

(** *** Modular inverse *)

(** The extended Euclidean state after the first round: [u], [v] are the
    magnitudes of the two cofactors and [e] the sign of the second. *)
Definition egcd (m x r0 r1 s0 s1 : Z) : Prop :=
  exists e u v, (e = 1 \/ e = -1) /\ s0 = - e * u /\ s1 = e * v /\ 0 <= u <= v /\ 0 < v /\
    0 <= r1 < r0 /\ u * r1 + v * r0 = m /\ (m | s0 * x - r0) /\ (m | s1 * x - r1) /\ Z.gcd r0 r1 = Z.gcd x m.

Lemma egcd_init m x : 0 < m -> egcd m x m (x mod m) 0 1.
Proof.
  intro Hm. pose proof (Z.mod_pos_bound x m Hm). exists 1, 0, 1.
  repeat split; try lia.
  - exists (-1). ring.
  - exists (x / m). pose proof (Z.div_mod x m ltac:(lia)). lia.
  - rewrite Z.gcd_comm, (Z.gcd_mod x m) by lia. apply Z.gcd_comm.
Qed.

Lemma egcd_step m x r0 r1 s0 s1 : egcd m x r0 r1 s0 s1 -> r1 <> 0 ->
  egcd m x r1 (r0 mod r1) s1 (s0 - r0 / r1 * s1).
Proof.
  intros (e & u & v & He & E0 & E1 & Huv & Hv & Hr & Hm & [k0 D0] & [k1 D1] & G) N.
  pose proof (Z.div_mod r0 r1 N) as DM. pose proof (Z.mod_pos_bound r0 r1 ltac:(lia)) as MB.
  assert (Q : 1 <= r0 / r1) by (apply Z.div_le_lower_bound; lia).
  assert (G' : Z.gcd r1 (r0 mod r1) = Z.gcd r0 r1) by (rewrite Z.gcd_comm, Z.gcd_mod by lia; apply Z.gcd_comm).
  set (q := r0 / r1) in *. set (r2 := r0 mod r1) in *. clearbody q r2.
  exists (- e), v, (u + q * v). split; [lia|]. split; [rewrite E1; ring|]. split; [rewrite E0, E1; ring|].
  assert (QV : v <= q * v) by (clear - Q Hv; nia).
  split; [lia|]. split; [lia|]. split; [lia|]. split; [rewrite <- Hm, DM; ring|].
  split; [exists k1; lia|]. split; [|congruence].
  exists (k0 - q * k1). replace ((s0 - q * s1) * x - r2) with ((s0 * x - r0) - q * (s1 * x - r1)); [|rewrite DM; ring].
  rewrite D0, D1. ring.
Qed.

Lemma egcd_end m x r0 s0 s1 : egcd m x r0 0 s0 s1 -> r0 = Z.gcd x m /\ (m | s0 * x - r0) /\ (r0 = 1 -> -m <= s0 <= m).
Proof.
  intros (e & u & v & He & E0 & E1 & Huv & Hv & Hr & Hm & D0 & D1 & G).
  rewrite Z.gcd_0_r, Z.abs_eq in G by lia. split; auto. split; auto. intros ->. nia.
Qed.

Lemma halves r0 r1 : 0 < r1 <= r0 -> 2 * (r1 * (r0 mod r1)) <= r0 * r1.
Proof.
  intro H. pose proof (Z.div_mod r0 r1 ltac:(lia)) as DM. pose proof (Z.mod_pos_bound r0 r1 ltac:(lia)) as MB.
  assert (Q : 1 <= r0 / r1) by (apply Z.div_le_lower_bound; lia). nia.
Qed.

Lemma inv_loop_ok m x f : forall r0 r1 s0 s1, egcd m x r0 r1 s0 s1 -> r0 * r1 < 2 ^ Z.of_nat f ->
  exists s, inv_loop (S f) (ofZ r0) (ofZ r1) (ofZ s0) (ofZ s1) = Ok (ofZ (Z.gcd x m), ofZ s) /\
    (m | s * x - Z.gcd x m) /\ (Z.gcd x m = 1 -> -m <= s <= m).
Proof.
  induction f as [|f IH]; intros r0 r1 s0 s1 I H.
  - change (Z.of_nat 0) with 0 in H. rewrite Z.pow_0_r in H.
    assert (r1 = 0) by (destruct I as (e & u & v & He & E0 & E1 & Huv & Hv & Hr & _); nia). subst r1.
    destruct (egcd_end _ _ _ _ _ I) as (E & D & Bd). rewrite <- E.
    exists s0. split; [reflexivity|]. auto.
  - assert (E : inv_loop (S (S f)) (ofZ r0) (ofZ r1) (ofZ s0) (ofZ s1) =
      if is_zero (ofZ r1) then Ok (ofZ r0, ofZ s0) else
      do ' (q, r2) <- div (ofZ r0) (ofZ r1); do q <- mul (neg q) q (ofZ s1); do s2 <- sub (ofZ s0) q;
      inv_loop (S f) (ofZ r1) r2 (ofZ s1) s2) by reflexivity.
    rewrite E; clear E. rewrite is_zero_ofZ. destruct (Z.eqb_spec r1 0) as [->|N].
    + destruct (egcd_end _ _ _ _ _ I) as (E & D & Bd). rewrite <- E.
      exists s0. split; [reflexivity|]. auto.
    + assert (HR : 0 < r1 < r0) by (destruct I as (e & u & v & He & E0 & E1 & Huv & Hv & Hr & _); lia).
      rewrite div_ofZ by lia. cbn [bind]. rewrite mul_ofZ. cbn [bind]. rewrite sub_ofZ. cbn [bind].
      apply IH; [apply egcd_step; auto|]. pose proof (halves r0 r1 ltac:(lia)).
      rewrite Nat2Z.inj_succ, Z.pow_succ_r in H by lia. lia.
Qed.

(** First round: whatever the sign of [x], and whatever quotient the division
    returns, the state is (m, x mod m, 0, 1). *)
Lemma inv_first m x f : 0 < m ->
  inv_loop (S f) (ofZ x) (ofZ m) mone mzero = inv_loop f (ofZ m) (ofZ (x mod m)) (ofZ 0) (ofZ 1).
Proof.
  intro Hm. 
  assert (E : inv_loop (S f) (ofZ x) (ofZ m) mone mzero =
      if is_zero (ofZ m) then Ok (ofZ x, mone) else
      do ' (q, r2) <- div (ofZ x) (ofZ m); do q <- mul (neg q) q mzero; do s2 <- sub mone q;
      inv_loop f (ofZ m) r2 mzero s2) by reflexivity.
  rewrite E; clear E. rewrite is_zero_ofZ. destruct (Z.eqb_spec m 0); [lia|].
  destruct (div_outcome (ofZ x) (ofZ m)) as (q & r & E & Wq & Wr & C & Q & R); auto; [rewrite mval_ofZ; auto|].
  destruct (C (canon_ofZ x)) as [Cq Cr]. rewrite E. cbn [bind].
  rewrite (canon_is_ofZ q Cq). rewrite <- ofZ_0, mul_ofZ. cbn [bind]. rewrite Z.mul_0_r.
  rewrite <- ofZ_1, sub_ofZ. cbn [bind]. rewrite Z.sub_0_r. f_equal.
  apply is_ofZ; auto. rewrite R. rewrite !mval_ofZ, !ofZ_neg, (Z.abs_eq m) by lia.
  destruct (Z.ltb_spec m 0); [lia|]. destruct (Z.ltb_spec x 0) as [L|L]; cbn [xorb].
  - rewrite (Z.abs_neq x) by lia. destruct (Z.eqb_spec (- x mod m) 0) as [Z0|Z0].
    + symmetry. rewrite <- (Z.opp_involutive x). apply Z.mod_opp_l_z; lia.
    + rewrite <- (Z.opp_involutive x) at 2. rewrite (Z.mod_opp_l_nz (- x)); lia.
  - rewrite (Z.abs_eq x) by lia. destruct (Z.ltb_spec x m); auto. rewrite Z.mod_small by lia. auto.
Qed.

Lemma match_one {T} (g : Z) (A C : T) : 0 <= g ->
  match dg (ofZ g), neg (ofZ g) with [1], false => A | _, _ => C end = if g =? 1 then A else C.
Proof.
  intro H. destruct (Z.eqb_spec g 1) as [->|N]; [reflexivity|].
  rewrite ofZ_neg. pose proof (ofZ_val g) as V. destruct (dg (ofZ g)) as [|d l]; auto.
  destruct d as [|p|p]; auto. destruct p; auto. destruct l; auto. exfalso. cbn in V. lia.
Qed.

Lemma inv_ofZ x m : 0 < m ->
  (Z.gcd x m = 1 -> exists r, inv (ofZ x) (ofZ m) = Ok (ofZ r) /\ 0 <= r < m /\ (x * r) mod m = 1 mod m) /\
  (Z.gcd x m <> 1 -> inv (ofZ x) (ofZ m) = Err (-1)).
Proof.
  intro Hm. unfold inv. rewrite inv_first by auto.
  destruct (count_bits_spec m ltac:(lia)) as (C1 & C2 & _).
  pose proof (Z.mod_pos_bound x m Hm) as MB.
  destruct (inv_loop_ok m x (Z.to_nat (2 * count_bits (ofZ m))) m (x mod m) 0 1) as (s & E & [k D] & Bd).
  { apply egcd_init; auto. }
  { rewrite Z2Nat.id by lia. replace (2 * count_bits (ofZ m)) with (count_bits (ofZ m) + count_bits (ofZ m)) by lia.
    rewrite Z.pow_add_r by lia. apply Z.mul_lt_mono_nonneg; lia. }
  rewrite E. cbn [bind]. rewrite match_one by apply Z.gcd_nonneg.
  split; intro G.
  - rewrite G in *. cbn [Z.eqb Pos.eqb]. rewrite ofZ_neg. specialize (Bd eq_refl).
    assert (S1 : forall r, (m | r - s) -> (x * r) mod m = 1 mod m).
    { intros r [j Hj]. replace (x * r) with (1 + (k + j * x) * m) by nia. apply Z_mod_plus_full. }
    destruct (Z.ltb_spec s 0).
    + rewrite mod_ofZ by auto. exists (s mod m). split; auto. split; [apply Z.mod_pos_bound; auto|].
      apply S1. exists (- (s / m)). pose proof (Z.div_mod s m ltac:(lia)). lia.
    + destruct (Z.eq_dec m 1) as [->|N1].
      * exists s. split; auto. split; [|rewrite !Z.mod_1_r; auto].
        rewrite Z.mod_1_r in E. cbn [inv_loop] in E. change (is_zero (ofZ 0)) with true in E. cbn [bind] in E.
        apply (f_equal (fun r => match r with Ok (_, s) => mval s | _ => 0 end)) in E. rewrite !mval_ofZ in E. lia.
      * exists s. split; auto. split; [|apply S1; exists 0; lia].
        destruct (Z.eq_dec s m) as [->|]; [|lia]. exfalso.
        assert (m | 1) by (exists (x - k); lia). apply Z.divide_1_r_nonneg in H0; lia.
  - destruct (Z.eqb_spec (Z.gcd x m) 1); [contradiction|]. reflexivity.
Qed.

(** *** Square root *)
Lemma sqrt_step_ofZ a x : 0 <= a -> 0 < x ->
  sqrt_step (ofZ a) (ofZ x) = Ok (ofZ ((x + a / x) / 2), ofZ (a / x)).
Proof.
  intros Ha Hx. unfold sqrt_step. destruct (div_ofZ_nr a x Ha Hx) as (r & E). rewrite E. cbn [bind].
  rewrite add_ofZ. cbn [bind]. pose proof (Z.div_pos a x Ha Hx). rewrite shr_ofZ by lia. rewrite Z.pow_1_r. reflexivity.
Qed.

Section Newton.
Variables (a s : Z).
Hypothesis (Hs : 0 < s) (Hlo : s * s <= a) (Hhi : a < (s + 1) * (s + 1)).

Lemma newton_ge x : 0 < x -> s <= (x + a / x) / 2.
Proof.
  intro Hx. apply Z.div_le_lower_bound; [lia|].
  assert (2 * s - x <= a / x); [|lia]. apply Z.div_le_lower_bound; [lia|].
  pose proof (Z.square_nonneg (s - x)). lia.
Qed.

Lemma newton_exact x : 0 < x -> a = s * s + 2 * s -> (x + a / x) / 2 = s -> x = s + 1.
Proof.
  intros Hx Ea E. destruct (Z.eq_dec x (s + 1)) as [|N]; auto. exfalso.
  assert (s + 1 <= (x + a / x) / 2); [|lia]. apply Z.div_le_lower_bound; [lia|].
  assert (2 * (s + 1) - x <= a / x); [|lia]. apply Z.div_le_lower_bound; [lia|].
  assert (1 <= (s + 1 - x) * (s + 1 - x)) by (clear - N; nia). lia.
Qed.

Lemma quot_le x : s < x -> a / x <= s.
Proof. intro H. assert (a / x < s + 1); [|lia]. apply Z.div_lt_upper_bound; [lia|]. nia. Qed.

Lemma half_lt x y : (x + y) / 2 <= y <-> x <= y + 1.
Proof. Z.to_euclidean_division_equations. lia. Qed.

Lemma sqrt_loop_ok f : forall x, s <= x -> (x = s -> a < s * s + 2 * s) -> x - s < 2 ^ Z.of_nat f ->
  sqrt_loop (S f) (ofZ a) (ofZ x) = Ok (ofZ s).
Proof.
  induction f as [|f IH]; intros x Hx Hx' HF.
  - change (Z.of_nat 0) with 0 in HF. rewrite Z.pow_0_r in HF. assert (x = s) by lia. subst x.
    specialize (Hx' eq_refl). cbn [sqrt_loop]. rewrite sqrt_step_ofZ by nia. cbn [bind].
    assert (Q : s <= a / s < s + 2).
    { split; [apply Z.div_le_lower_bound; nia|apply Z.div_lt_upper_bound; nia]. }
    assert (E : (s + a / s) / 2 = s) by (symmetry; apply (Z.div_unique _ _ _ (a / s - s)); lia).
    rewrite E, cmp_abs_ofZ, !Z.abs_eq by lia. destruct (Z.ltb_spec 0 (Z.sgn (s - a / s))); [lia|reflexivity].
  - destruct (Z.eq_dec x s) as [->|N]; [|assert (Gt : s < x) by lia; clear Hx Hx' N].
    + specialize (Hx' eq_refl). change (sqrt_loop (S (S f)) (ofZ a) (ofZ s)) with
        (do ' (t1, t2) <- sqrt_step (ofZ a) (ofZ s); if 0 <? cmp_abs t1 t2 then sqrt_loop (S f) (ofZ a) t1 else Ok t1).
      rewrite sqrt_step_ofZ by nia. cbn [bind].
      assert (Q : s <= a / s < s + 2).
      { split; [apply Z.div_le_lower_bound; nia|apply Z.div_lt_upper_bound; nia]. }
      assert (E : (s + a / s) / 2 = s) by (symmetry; apply (Z.div_unique _ _ _ (a / s - s)); lia).
      rewrite E, cmp_abs_ofZ, !Z.abs_eq by lia. destruct (Z.ltb_spec 0 (Z.sgn (s - a / s))); [lia|reflexivity].
    + change (sqrt_loop (S (S f)) (ofZ a) (ofZ x)) with
        (do ' (t1, t2) <- sqrt_step (ofZ a) (ofZ x); if 0 <? cmp_abs t1 t2 then sqrt_loop (S f) (ofZ a) t1 else Ok t1).
      rewrite sqrt_step_ofZ by nia. cbn [bind].
      pose proof (quot_le x Gt) as QL. pose proof (newton_ge x ltac:(lia)) as NG.
      assert (QP : 0 <= a / x) by (apply Z.div_pos; nia).
      assert (NE : a = s * s + 2 * s -> (x + a / x) / 2 = s -> x = s + 1) by (apply newton_exact; lia).
      assert (HL : (x + a / x) / 2 <= a / x <-> x <= a / x + 1) by apply half_lt.
      assert (HH : (x + a / x) / 2 - s <= (x - s) / 2).
      { replace ((x - s) / 2) with ((x + s) / 2 - s). 2: { replace (x + s) with (x - s + s * 2) by ring. rewrite Z.div_add by lia. lia. }
        assert ((x + a / x) / 2 <= (x + s) / 2) by (apply Z.div_le_mono; lia). lia. }
      rewrite cmp_abs_ofZ, !Z.abs_eq by lia.
      set (q := a / x) in *.
      destruct (Z.ltb_spec 0 (Z.sgn ((x + q) / 2 - q))) as [L|L].
      * apply IH; [lia| |].
        -- intro E. destruct (Z.lt_ge_cases a (s * s + 2 * s)) as [|GE]; auto. exfalso.
           assert (EA : a = s * s + 2 * s) by nia. specialize (NE EA E). subst x.
           assert (q = s); [|lia]. symmetry. apply (Z.div_unique _ _ _ s); nia.
        -- rewrite Nat2Z.inj_succ, Z.pow_succ_r in HF by lia.
           assert ((x - s) / 2 < 2 ^ Z.of_nat f) by (apply Z.div_lt_upper_bound; lia). lia.
      * do 2 f_equal. assert (x = s + 1 /\ q = s) as [-> ->] by lia.
        symmetry. apply (Z.div_unique _ _ _ 1); lia.
Qed.
End Newton.

Lemma shrd_ofZ x n : 0 <= x -> shrd (ofZ x) n = ofZ (x / B ^ Z.of_nat n).
Proof.
  intro H. destruct (shrd_spec (ofZ x) n) as (W & V & N); auto. rewrite ofZ_val, Z.abs_eq in V by auto.
  rewrite ofZ_neg in N. destruct (Z.ltb_spec x 0); [lia|].
  apply is_ofZ; [apply wf_canon; auto; tauto|]. unfold mval. replace (neg (shrd (ofZ x) n)) with false by (symmetry; tauto). auto.
Qed.

Lemma used_bounds x : 0 < x -> (0 < used (ofZ x))%nat /\ B ^ Z.of_nat (used (ofZ x) - 1) <= x < B ^ Z.of_nat (used (ofZ x)).
Proof.
  intro H. pose proof (ofZ_val x) as V. rewrite Z.abs_eq in V by lia.
  destruct (canon_ofZ x) as [[D N] _]. unfold used. destruct (dg (ofZ x)) as [|d l] eqn:E; [cbn in V; lia|].
  pose proof (normal_pos d l D N) as P. pose proof (val_lt _ D) as U. rewrite V in *.
  cbn [length] in *. replace (S (length l) - 1)%nat with (length l) by lia. split; [lia|]. split; [|auto]. lia.
Qed.

Lemma sqrt_ofZ a : 0 <= a -> sqrt (ofZ a) = Ok (ofZ (Z.sqrt a)).
Proof.
  intro Ha. unfold sqrt. rewrite ofZ_neg. destruct (Z.ltb_spec a 0); [lia|]. rewrite is_zero_ofZ.
  destruct (Z.eqb_spec a 0) as [->|N]; [reflexivity|].
  destruct (Z.sqrt_spec a Ha) as [Hlo Hhi]. unfold Z.succ in Hhi.
  assert (Hs : 0 < Z.sqrt a) by (apply Z.sqrt_pos; lia).
  destruct (used_bounds a ltac:(lia)) as (U0 & U1 & U2).
  set (s := Z.sqrt a) in *. clearbody s. set (n := used (ofZ a)) in *. clearbody n.
  rewrite shrd_ofZ by lia. set (k := (n / 2)%nat).
  assert (Hk : (n = 2 * k \/ n = 2 * k + 1)%nat).
  { unfold k. pose proof (Nat.div_mod n 2 ltac:(lia)). pose proof (Nat.mod_upper_bound n 2 ltac:(lia)). lia. }
  clearbody k. pose proof B_pos as BP.
  assert (PK : 0 < B ^ Z.of_nat k) by (apply Z.pow_pos_nonneg; lia).
  assert (LE : B ^ Z.of_nat k <= a).
  { apply Z.le_trans with (2 := U1). apply Z.pow_le_mono_r; lia. }
  assert (CASE : s < B ^ Z.of_nat k \/ (B ^ Z.of_nat k <= s)) by lia.
  assert (E2 : B ^ Z.of_nat (2 * k) = B ^ Z.of_nat k * B ^ Z.of_nat k).
  { rewrite <- Z.pow_add_r by lia. f_equal. lia. }
  assert (X0 : a = s * s + 2 * s -> a / B ^ Z.of_nat k <> s + 1).
  { intros EA EX. set (b := B ^ Z.of_nat k) in *. 
    pose proof (Z.mul_div_le a b PK) as L1. pose proof (Z.mul_succ_div_gt a b PK) as L2. rewrite EX in *. unfold Z.succ in L2.
    destruct Hk as [Hk|Hk].
    - rewrite Hk, E2 in U2. clearbody b. assert (s < b) by nia. nia.
    - replace (n - 1)%nat with (2 * k)%nat in U1 by lia. rewrite E2 in U1. clearbody b. assert (b <= s) by nia. nia. }
  assert (P0 : 0 < a / B ^ Z.of_nat k) by (apply Z.div_str_pos; lia).
  assert (L0 : a / B ^ Z.of_nat k <= a) by (apply Z.div_le_upper_bound; [|clear - Ha PK]; nia).
  set (x := a / B ^ Z.of_nat k) in *. clearbody x.
  rewrite sqrt_step_ofZ by lia. cbn [bind].
  destruct (count_bits_spec a Ha) as (C1 & C2 & C3).
  assert (LA : a / x <= a) by (apply Z.div_le_upper_bound; [|clear - Ha P0]; nia).
  change (sqrt_loop (S ?f)) with (sqrt_loop (S f)).
  apply sqrt_loop_ok; auto.
  - apply newton_ge; auto.
  - intro E. destruct (Z.lt_ge_cases a (s * s + 2 * s)) as [|GE]; auto. exfalso.
    assert (EA : a = s * s + 2 * s) by nia. apply (X0 EA). apply (newton_exact a s); auto.
  - rewrite Nat2Z.inj_succ, Z2Nat.id by lia. rewrite Z.pow_succ_r by lia.
    assert ((x + a / x) / 2 <= a) by (apply Z.div_le_upper_bound; lia). lia.
Qed.

(** *** Word-sized inverse *)
Lemma to_long_id z : - (B / 2) <= z < B / 2 -> to_long z = z.
Proof.
  intro H. unfold to_long. cbv zeta. change (B / 2) with 9223372036854775808 in *. 
  destruct (Z.lt_ge_cases z 0).
  - replace (z mod B) with (z + B). 2: { apply (Z.mod_unique z B (-1)); unfold B in *; lia. }
    unfold B in *. destruct (Z.ltb_spec (z + 18446744073709551616) 9223372036854775808); lia.
  - rewrite Z.mod_small by (unfold B in *; lia). destruct (Z.ltb_spec z 9223372036854775808); lia.
Qed.

Lemma long_inv_loop_ok m x f : forall r0 r1 s0 s1, 1 < m < B -> egcd m x r0 r1 s0 s1 -> r0 * r1 < 2 ^ Z.of_nat f ->
  (r0 = 1 -> - (B / 2) <= s0 < B / 2) ->
  exists s, long_inv_loop (S f) r0 r1 s0 s1 = Ok (Z.gcd x m, s) /\
    (Z.gcd x m = 1 -> (m | s * x - 1) /\ -m <= s <= m /\ - (B / 2) <= s < B / 2).
Proof.
  induction f as [|f IH]; intros r0 r1 s0 s1 Hm I H H1.
  - change (Z.of_nat 0) with 0 in H. rewrite Z.pow_0_r in H.
    assert (r1 = 0) by (destruct I as (e & u & v & He & E0 & E1 & Huv & Hv & Hr & _); nia). subst r1.
    destruct (egcd_end _ _ _ _ _ I) as (E & D & Bd). rewrite <- E.
    exists s0. split; [reflexivity|]. intro R1. rewrite R1 in *. auto.
  - assert (E : long_inv_loop (S (S f)) r0 r1 s0 s1 =
      if r1 =? 0 then Ok (r0, s0) else
      long_inv_loop (S f) r1 (r0 mod r1) s1 (to_long (s0 - r0 / r1 * s1))) by reflexivity.
    rewrite E; clear E. destruct (Z.eqb_spec r1 0) as [->|N].
    + destruct (egcd_end _ _ _ _ _ I) as (E & D & Bd). rewrite <- E.
      exists s0. split; [reflexivity|]. intro R1. rewrite R1 in *. auto.
    + pose proof (egcd_step _ _ _ _ _ _ I N) as I'.
      assert (HR : 0 < r1 < r0) by (destruct I as (e & u & v & He & E0 & E1 & Huv & Hv & Hr & _); lia).
      destruct (Z.eq_dec r1 1) as [->|N1].
      * (* last round: the new cofactor is never used *)
        assert (B1 : - (B / 2) <= s1 < B / 2).
        { destruct I as (e & u & v & He & E0 & E1 & Huv & Hv & Hr & Hm2 & _).
          assert (2 * v <= m) by nia. unfold B in *. change (18446744073709551616 / 2) with 9223372036854775808.
          destruct He as [-> | ->]; nia. }
        rewrite Z.mod_1_r in *. cbn [long_inv_loop Z.eqb]. destruct (egcd_end _ _ _ _ _ I') as (E & D & Bd).
        rewrite <- E. exists s1. split; [reflexivity|]. auto.
      * assert (B2 : - (B / 2) <= s0 - r0 / r1 * s1 < B / 2).
        { destruct I' as (e & u & v & He & E0 & E1 & Huv & Hv & Hr & Hm2 & _). rewrite E1.
          assert (2 * v <= m) by nia. unfold B in *. change (18446744073709551616 / 2) with 9223372036854775808.
          clear - He H0 Hm Hv. destruct He as [-> | ->]; lia. }
        rewrite to_long_id by auto. apply IH; auto; [|lia].
        pose proof (halves r0 r1 ltac:(lia)).
        rewrite Nat2Z.inj_succ, Z.pow_succ_r in H by lia. lia.
Qed.

Lemma long_inv_loop_S f r0 r1 s0 s1 : long_inv_loop (S f) r0 r1 s0 s1 =
  if r1 =? 0 then Ok (r0, s0) else long_inv_loop f r1 (r0 mod r1) s1 (to_long (s0 - r0 / r1 * s1)).
Proof. reflexivity. Qed.

Lemma long_inv_ok x m : 0 <= x < B -> 1 < m < B ->
  (Z.gcd x m = 1 -> exists r, long_inv x m = Ok r /\ 0 <= r < m /\ (x * r) mod m = 1) /\
  (Z.gcd x m <> 1 -> long_inv x m = Ok 0).
Proof.
  intros Hx Hm. unfold long_inv.
  assert (E1 : long_inv_loop 130 x m 1 0 = long_inv_loop (S 128) m (x mod m) 0 1).
  { rewrite (long_inv_loop_S 129).
    destruct (Z.eqb_spec m 0); [lia|]. rewrite Z.mul_0_r. rewrite to_long_id; [reflexivity|]. unfold B. split; [discriminate|reflexivity]. }
  rewrite E1. clear E1. pose proof (Z.mod_pos_bound x m ltac:(lia)) as MB.
  destruct (long_inv_loop_ok m x 128 m (x mod m) 0 1 Hm) as (s & E & F).
  { apply egcd_init; lia. }
  { change (2 ^ Z.of_nat 128) with (B * B). apply Z.mul_lt_mono_nonneg; lia. }
  { lia. }
  rewrite E. cbn [bind]. split; intro G.
  - rewrite G in *. destruct (F eq_refl) as ([k D] & Bd & B2). cbn [Z.eqb Pos.eqb negb].
    assert (NM : forall r, (m | r - s) -> (x * r) mod m = 1).
    { intros r [j Hj]. replace (x * r) with (1 + (k + j * x) * m) by nia. rewrite Z_mod_plus_full. apply Z.mod_small; lia. }
    assert (NE : s <> m /\ s <> - m).
    { split; intros ->; assert (m | 1).
      - exists (x - k). lia. - apply Z.divide_1_r_nonneg in H; lia.
      - exists (- x - k). lia. - apply Z.divide_1_r_nonneg in H; lia. }
    destruct (Z.ltb_spec s 0).
    + exists (s + m). split; [|split; [lia|apply NM; exists 1; lia]]. f_equal.
      assert (TL : to_long (s + m) mod B = (s + m) mod B).
      { unfold to_long. cbv zeta. destruct (_ <? _); [apply Z.mod_mod; discriminate|].
        replace ((s + m) mod B - B) with ((s + m) mod B + (-1) * B) by ring. rewrite Z_mod_plus_full. apply Z.mod_mod; discriminate. }
      rewrite TL. apply Z.mod_small. lia.
    + exists s. split; [|split; [lia|apply NM; exists 0; lia]]. f_equal. apply Z.mod_small. lia.
  - destruct (Z.eqb_spec (Z.gcd x m) 1); [contradiction|]. reflexivity.
Qed.

(** *** Statements over objects *)
Lemma inv_exact a m : canon a -> canon m -> 0 < mval m -> Z.gcd (mval a) (mval m) = 1 ->
  exists r, inv a m = Ok r /\ canon r /\ 0 <= mval r < mval m /\ (mval a * mval r) mod mval m = 1 mod mval m.
Proof.
  intros Ca Cm Hm G. destruct (proj1 (inv_ofZ (mval a) (mval m) Hm) G) as (r & E & R).
  exists (ofZ r). rewrite mval_ofZ. rewrite (canon_is_ofZ a Ca) at 1. rewrite (canon_is_ofZ m Cm) at 1. auto.
Qed.

Lemma inv_none a m : canon a -> canon m -> 0 < mval m -> Z.gcd (mval a) (mval m) <> 1 -> inv a m = Err (-1).
Proof.
  intros Ca Cm Hm G. rewrite (canon_is_ofZ a Ca), (canon_is_ofZ m Cm). apply inv_ofZ; auto.
Qed.

Lemma sqrt_exact a : canon a -> 0 <= mval a ->
  exists r, sqrt a = Ok r /\ canon r /\ 0 <= mval r /\ mval r * mval r <= mval a < (mval r + 1) * (mval r + 1).
Proof.
  intros C H. exists (ofZ (Z.sqrt (mval a))). rewrite mval_ofZ. split; [rewrite (canon_is_ofZ a C) at 1; apply sqrt_ofZ; auto|].
  split; auto. split; [apply Z.sqrt_nonneg|]. apply Z.sqrt_spec; auto.
Qed.

Lemma sqrt_neg a : canon a -> mval a < 0 -> sqrt a = Err (-1).
Proof. intros C H. unfold sqrt. rewrite (canon_neg a C). destruct (Z.ltb_spec (mval a) 0); [reflexivity|lia]. Qed.

Lemma long_inv_some v m : 0 <= v < 2 ^ 64 -> 1 < m < 2 ^ 64 -> Z.gcd v m = 1 ->
  exists r, long_inv v m = Ok r /\ 0 <= r < m /\ (v * r) mod m = 1.
Proof. intros Hv Hm. exact (proj1 (long_inv_ok v m Hv Hm)). Qed.
Lemma long_inv_none v m : 0 <= v < 2 ^ 64 -> 1 < m < 2 ^ 64 -> Z.gcd v m <> 1 -> long_inv v m = Ok 0.
Proof. intros Hv Hm. exact (proj2 (long_inv_ok v m Hv Hm)). Qed.

Lemma count_bytes_mval a : wf a ->
  2 ^ (8 * (count_bytes a - 1)) <= Z.abs (mval a) < 2 ^ (8 * count_bytes a) \/ (mval a = 0 /\ count_bytes a = 0).
Proof.
  intro W. unfold count_bytes. rewrite count_bits_mval by auto. destruct (Z.eqb_spec (mval a) 0) as [E|N]; [right; auto|left].
  set (x := Z.abs (mval a)). assert (Hx : 0 < x) by lia. pose proof (Z.log2_nonneg x) as L0. destruct (Z.log2_spec x Hx) as [L1 L2].
  set (k := Z.log2 x) in *. clearbody k. set (n := (k + 1 + 7) / 8).
  assert (8 * n <= k + 8 < 8 * n + 8) by (unfold n; pose proof (Z.div_mod (k + 1 + 7) 8 ltac:(lia)); pose proof (Z.mod_pos_bound (k + 1 + 7) 8 ltac:(lia)); lia).
  split.
  - apply Z.le_trans with (2 := L1). apply Z.pow_le_mono_r; lia.
  - apply Z.lt_le_trans with (1 := L2). apply Z.pow_le_mono_r; lia.
Qed.

Lemma bit_test_mval a i : wf a -> 0 <= i < 64 * Z.of_nat (used a) ->
  is_bit_set a i = Ok (Z.testbit (Z.abs (mval a)) i).
Proof. intros W Hi. rewrite is_bit_set_ok by auto. rewrite abs_mval by auto. reflexivity. Qed.
