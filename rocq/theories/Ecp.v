(** cry_ecp_add, cry_ecp_dbl and cry_ecp_mul compute the chord and tangent law. *)
From Coq Require Import ZArith Znumtheory Lia List.
From Verif Require Import Base MpiModel MpiSpec MpiDigits MpiMul MpiMul2 MpiCanon MpiMulModel MpiDivModel MpiDiv MpiAlgModel MpiAlg MpiAlg2 MpiIOModel Pk NumTh EcpModel EcSpec EcZ EcpSpec.
Import ListNotations.
Open Scope Z_scope.
Ltac Zify.zify_post_hook ::= idtac.

Lemma third_cong p l l' x1 y1 x2 : 0 < p -> l mod p = l' mod p -> ec_third p l x1 y1 x2 = ec_third p l' x1 y1 x2.
Proof.
  intros Hp E. unfold ec_third. assert (Ex : (l * l - x1 - x2) mod p = (l' * l' - x1 - x2) mod p).
  { apply mod_sub; [auto| |reflexivity]. apply mod_sub; [auto| |reflexivity]. apply mod_mul; auto. }
  rewrite Ex. f_equal. f_equal. apply mod_sub; [auto| |reflexivity]. apply mod_mul; auto.
Qed.
Lemma ecp_third_ok p l x1 y1 x2 : 0 < p -> ecp_third (ofZ p) (ofZ l) (ofZ x1) (ofZ y1) (ofZ x2) = Ok (ept (ec_third p l x1 y1 x2)).
Proof.
  intro Hp. unfold ecp_third. rewrite sqr_ofZ. cbn [bind]. rewrite mod_ofZ by auto. cbn [bind]. rewrite sub_ofZ. cbn [bind]. rewrite sub_ofZ. cbn [bind].
  rewrite mod_ofZ by auto. cbn [bind]. rewrite sub_ofZ. cbn [bind]. rewrite mul_ofZ. cbn [bind]. rewrite mod_ofZ by auto. cbn [bind]. rewrite sub_ofZ. cbn [bind].
  rewrite mod_ofZ by auto. cbn [bind ept ec_third]. rewrite mone_ofZ.
  assert (Ex : ((l * l) mod p - x1 - x2) mod p = (l * l - x1 - x2) mod p).
  { apply mod_sub; [auto| |reflexivity]. apply mod_sub; [auto| |reflexivity]. apply Zmod_mod. }
  rewrite Ex. do 2 f_equal. f_equal. apply mod_sub; [auto| |reflexivity]. rewrite Zmod_mod. f_equal. ring.
Qed.

(** the numerator of the slope of the tangent, times the inverse; the sum may be
    an unnormalised zero *)
Lemma add_unnorm v : 0 < v -> add (ofZ v) (mkmpi false [0]) = Ok (ofZ v).
Proof.
  intro Hv. pose proof (canon_wf _ (canon_ofZ v)) as [D _]. assert (N : neg (ofZ v) = false) by (rewrite ofZ_neg; lia).
  assert (Z0 : is_zero (ofZ v) = false) by (rewrite is_zero_ofZ; lia).
  unfold add. rewrite N. cbn [neg Bool.eqb]. destruct (ofZ v) as [s l] eqn:E. cbn [neg dg is_zero] in *. subst s. destruct l as [|x l]; [discriminate Z0|].
  unfold add_abs, used. cbn [dg length Nat.ltb Nat.leb add_loop]. apply digits_cons in D. destruct D as [Dx _].
  rewrite !Z.add_0_r, Zmod_mod, Z.mod_small by exact Dx. destruct (Z.ltb_spec x 0) as [L|_]; [lia|]. rewrite Z.ltb_irrefl. cbn [Z.add]. destruct l; reflexivity.
Qed.
Lemma mul_unnorm d : mul false (mkmpi false [0]) (ofZ d) = Ok (ofZ 0).
Proof.
  pose proof (canon_wf _ (canon_ofZ d)) as [D _]. unfold mul, mul_gen, mul_abs. remember (Nat.min (used (mkmpi false [0])) (used (ofZ d))) as m.
  assert (Hm : (m <= 1)%nat) by (subst m; unfold used; cbn [dg length]; lia). cbn [mul_abs_f]. rewrite <- Heqm.
  destruct (Nat.ltb_spec 300 m); [lia|]. destruct (Nat.ltb_spec 64 m); [lia|]. cbn [bind].
  destruct (mul_comba_ok false (mkmpi false [0]) (ofZ d)) as [W V]; [apply digits_cons; split; [unfold B; lia|constructor]|exact D|].
  cbn [dg val] in V. rewrite Z.mul_0_r, Z.add_0_r, Z.mul_0_l in V. rewrite is_zero_val by exact W. rewrite V, Z.eqb_refl. f_equal.
  apply is_ofZ.
  - split; [exact W|]. intros _. unfold mul_comba, mul_comba_gen. destruct (_ || _)%bool; reflexivity.
  - rewrite mval_sg, V. ring.
Qed.
Lemma mod_unnorm p : 0 < p -> mod_ (mkmpi false [0]) (ofZ p) = Ok (mkmpi false [0]).
Proof.
  intro Hp. pose proof (canon_wf _ (canon_ofZ p)) as [D _]. assert (N : neg (ofZ p) = false) by (rewrite ofZ_neg; lia).
  assert (Z0 : is_zero (ofZ p) = false) by (rewrite is_zero_ofZ; lia).
  unfold mod_, div, div_gen, div_abs. rewrite Z0. cbn [bind].
  assert (C : cmp_abs (mkmpi false [0]) (ofZ p) <? 0 = true).
  { pose proof (ofZ_val p) as V. destruct (ofZ p) as [s l] eqn:E. cbn [neg dg is_zero] in *. unfold cmp_abs, used. cbn [dg length].
    destruct l as [|x [|y l]]; [discriminate Z0| |reflexivity]. cbn [Nat.ltb Nat.leb length cmp_digs Z.eqb]. cbn [val] in V. destruct (Z.ltb_spec 0 x); [reflexivity|lia]. }
  rewrite C. cbn [bind]. rewrite N. cbn [neg xorb bind]. reflexivity.
Qed.
Lemma slope_num p am a v d : 0 < p -> 0 <= v -> a_rep am a ->
  exists m1 m2, add (ofZ v) am = Ok m1 /\ mod_ m1 (ofZ p) = Ok m2 /\ mul false m2 (ofZ d) = Ok (ofZ (((v + a) mod p) * d)).
Proof.
  intros Hp Hv [->|[-> ->]].
  - exists (ofZ (v + a)), (ofZ ((v + a) mod p)). rewrite add_ofZ, mod_ofZ, mul_ofZ by auto. auto.
  - destruct (Z.eq_dec v 0) as [->|N].
    + exists (mkmpi false [0]), (mkmpi false [0]). split; [reflexivity|]. split; [apply mod_unnorm; auto|]. rewrite mul_unnorm, Z.mod_0_l by lia. reflexivity.
    + exists (ofZ v), (ofZ (v mod p)). rewrite add_unnorm by lia. rewrite mod_ofZ, mul_ofZ, Z.add_0_r by auto. auto.
Qed.

Section Curve.
Variables (p a b : Z) (am : mpi).
Hypothesis HA : a_rep am a.
Hypothesis HG : good_curve p a b.
Variables (G : ecpoint) (n : Z).
Let Hp : prime p. Proof. exact (proj1 HG). Qed.
Let Hpos : 2 < p. Proof. exact (proj1 (proj2 HG)). Qed.
Local Notation g := (egrp p am b G n).

Lemma inv_minv x : ~ (p | x) -> exists r, inv (ofZ x) (ofZ p) = Ok (ofZ r) /\ 0 <= r < p /\ r mod p = minv p x mod p.
Proof.
  intro N. destruct (inv_ofZ x p ltac:(lia)) as [I _]. destruct I as (r & E & Hr & M).
  { apply Zgcd_1_rel_prime. apply rel_prime_sym. apply prime_rel_prime; auto. }
  exists r. split; [exact E|]. split; [exact Hr|].
  pose proof (minv_ok p Hp x N) as M'. rewrite Z.mod_1_l in M by lia.
  assert (E1 : r mod p = (r * (minv p x * x)) mod p).
  { rewrite Z.mul_mod, M', Z.mul_1_r, Zmod_mod by lia. reflexivity. }
  rewrite E1. replace (r * (minv p x * x)) with (minv p x * (x * r)) by ring. rewrite Z.mul_mod, M, Z.mul_1_r, Zmod_mod by lia. reflexivity.
Qed.
Lemma small_div x : 0 < x < p -> ~ (p | x).
Proof. intros H D. apply Z.divide_pos_le in D; lia. Qed.

Lemma div_abs_lt x : - p < x < p -> (p | x) -> x = 0.
Proof.
  intros H D. destruct (Z.eq_dec x 0) as [|N]; [auto|exfalso]. destruct (Z_lt_le_dec 0 x); [apply (small_div x); auto; lia|].
  apply (small_div (- x)); [lia|]. apply Z.divide_opp_r. exact D.
Qed.

Theorem ecp_dbl_ok P : on_curve p a b P -> (forall x, P <> Some (x, 0)) -> ecp_dbl g (ept P) = Ok (ept (ec_add p a P P)).
Proof.
  destruct P as [[x y]|]; [|reflexivity]. cbn [on_curve]. intros (Hx & Hy & _) N0.
  assert (Ny : y <> 0) by (intros ->; apply (N0 x); reflexivity).
  unfold ecp_dbl. cbn [ept ecp_is_zero ez ex ey gp ga egrp]. unfold ecp_is_zero. cbn [ez]. change (is_zero (ofZ 1)) with false. cbn iota.
  change (set_int 3) with (Ok (ofZ 3)). change (set_int 2) with (Ok (ofZ 2)). cbn [bind].
  rewrite mul_ofZ. cbn [bind]. rewrite mul_ofZ. cbn [bind]. rewrite mod_ofZ by lia. cbn [bind].
  assert (N2 : ~ (p | 2 * y)).
  { intro D. apply prime_mult in D; [|exact Hp]. destruct D as [D|D]; [apply Z.divide_pos_le in D; lia|apply (small_div y); auto; lia]. }
  destruct (inv_minv (2 * y) N2) as (r & E & Hr & M). 
  destruct (slope_num p am a ((3 * x * x) mod p) (r mod p)) as (m1 & m2 & E1 & E2 & E3); [lia|apply Z.mod_pos_bound; lia|exact HA|].
  rewrite E1. cbn [bind]. rewrite E2. cbn [bind]. rewrite mul_ofZ. cbn [bind]. rewrite E. cbn [bind]. rewrite mod_ofZ by lia. cbn [bind]. rewrite E3. cbn [bind]. rewrite mod_ofZ by lia. cbn [bind].
  rewrite ecp_third_ok by lia. do 2 f_equal. cbn [ec_add]. rewrite Z.eqb_refl.
  destruct (Z.eqb_spec ((y + y) mod p) 0) as [Z|_].
  { exfalso. apply N2. apply Z.mod_divide; [lia|]. rewrite <- Z. f_equal. lia. }
  apply third_cong; [lia|]. apply mod_mul; [lia| |].
  - rewrite Zmod_mod. apply mod_add; [lia| |reflexivity]. rewrite Zmod_mod. f_equal. ring.
  - rewrite Zmod_mod. exact M.
Qed.
Theorem ecp_add_ok P Q : on_curve p a b P -> on_curve p a b Q -> ~ (P = Q /\ exists x, P = Some (x, 0)) -> ecp_add g (ept P) (ept Q) = Ok (ept (ec_add p a P Q)).
Proof.
  destruct P as [[x1 y1]|]; [|reflexivity]. destruct Q as [[x2 y2]|]; [|reflexivity].
  intros H1 H2 N0. pose proof H1 as (Hx1 & Hy1 & C1). pose proof H2 as (Hx2 & Hy2 & C2).
  unfold ecp_add, ecp_is_zero. cbn [ept ez ex ey gp ga egrp]. change (is_zero (ofZ 1)) with false. cbn iota.
  rewrite sub_ofZ. cbn [bind]. rewrite mod_ofZ by lia. cbn [bind]. rewrite sub_ofZ. cbn [bind]. rewrite mod_ofZ by lia. cbn [bind]. rewrite !is_zero_ofZ.
  cbn [ec_add]. destruct (Z.eqb_spec x1 x2) as [Ex|Ex].
  - subst x2. rewrite Z.sub_diag, Z.mod_0_l by lia. cbn [Z.eqb].
    destruct (Z.eqb_spec ((y2 - y1) mod p) 0) as [E|E].
    + assert (Ey : y2 = y1).
      { apply Z.mod_divide in E; [|lia]. apply div_abs_lt in E; lia. }
      subst y2. change ({| ex := ofZ x1; ey := ofZ y1; ez := ofZ 1 |}) with (ept (Some (x1, y1))).
      rewrite ecp_dbl_ok; [cbn [ec_add]; rewrite Z.eqb_refl; reflexivity|exact H1|]. intros x Q. apply N0. split; [reflexivity|exists x; exact Q].
    + destruct (Z.eqb_spec ((y1 + y2) mod p) 0) as [_|N]; [reflexivity|exfalso].
      rewrite <- C1 in C2. apply divide_mod_eq in C2; [|lia]. replace (y2 * y2 - y1 * y1) with ((y2 - y1) * (y1 + y2)) in C2 by ring.
      apply prime_mult in C2; [|exact Hp]. destruct C2 as [D|D]; apply Z.mod_divide in D; lia.
  - assert (Nd : ~ (p | x2 - x1)) by (intro D; apply div_abs_lt in D; lia).
    destruct (Z.eqb_spec ((x2 - x1) mod p) 0) as [E|_]; [exfalso; apply Nd; apply Z.mod_divide in E; auto; lia|].
    destruct (inv_minv ((x2 - x1) mod p)) as (r & E & Hr & M).
    { intro D. apply Nd. apply Z.mod_divide; [lia|]. apply Z.mod_divide in D; [|lia]. rewrite Zmod_mod in D. exact D. }
    rewrite E. cbn [bind]. rewrite mul_ofZ. cbn [bind]. rewrite mod_ofZ by lia. cbn [bind]. rewrite ecp_third_ok by lia. do 2 f_equal.
    apply third_cong; [lia|]. rewrite Zmod_mod. apply mod_mul; [lia|apply Zmod_mod|]. rewrite M. unfold minv. rewrite !Zmod_mod. apply mod_pow; [lia..|apply Zmod_mod].
Qed.
(** a point of order two cannot be doubled *)
Lemma ecp_dbl_order2 x : ecp_dbl g (ept (Some (x, 0))) = Err (-1).
Proof.
  unfold ecp_dbl, ecp_is_zero. cbn [ept ez ex ey gp ga egrp]. change (is_zero (ofZ 1)) with false. cbn iota.
  change (set_int 3) with (Ok (ofZ 3)). change (set_int 2) with (Ok (ofZ 2)). cbn [bind].
  rewrite mul_ofZ. cbn [bind]. rewrite mul_ofZ. cbn [bind]. rewrite mod_ofZ by lia. cbn [bind].
  destruct (slope_num p am a ((3 * x * x) mod p) 0) as (m1 & m2 & E1 & E2 & _); [lia|apply Z.mod_pos_bound; lia|exact HA|].
  rewrite E1. cbn [bind]. rewrite E2. cbn [bind]. rewrite mul_ofZ. cbn [bind]. destruct (inv_ofZ (2 * 0) p ltac:(lia)) as [_ I]. rewrite I; [reflexivity|]. rewrite Z.mul_0_r, Z.gcd_0_l. lia.
Qed.
End Curve.
