(** Checkers for the absence of points of order two, that is of roots of
    x^3 + a x + b modulo p: x^p is computed modulo the cubic with the quotients
    given, and an identity shows that x^p - x has no root in common with it. *)
From Coq Require Import ZArith Znumtheory Lia List Bool.
From Verif Require Import FastMul NumTh Fermat Pock EcSpec EcZ.
Import ListNotations.
Open Scope Z_scope.

Section Root.
  Variables p a b : Z.
  Variable mp : Z -> Z.
  Hypothesis mp_ok : forall k, mp k = k * p.

  (** the square of c0 + c1 x + c2 x^2 modulo the cubic, then x times that *)
  Definition sq3 (c : Z * Z * Z) : Z * Z * Z :=
    let '(c0, c1, c2) := c in
    let d3 := 2 * zmul c1 c2 in let d4 := zmul c2 c2 in
    (zmul c0 c0 - zmul d3 b, 2 * zmul c0 c1 - d3 * a - zmul d4 b, 2 * zmul c0 c2 + zmul c1 c1 - d4 * a).
  Definition tx3 (c : Z * Z * Z) : Z * Z * Z :=
    let '(c0, c1, c2) := c in (- zmul c2 b, c0 - c2 * a, c1).
  Definition red3 (c : Z * Z * Z) (w : list Z) : (Z * Z * Z) * list Z :=
    let '(c0, c1, c2) := c in
    match w with k0 :: k1 :: k2 :: w => ((c0 - mp k0, c1 - mp k1, c2 - mp k2), w) | _ => (c, []) end.
  Definition red1 (c : Z * Z * Z) (w : list Z) : (Z * Z * Z) * list Z :=
    let '(c0, c1, c2) := c in
    match w with k0 :: w => ((c0 - mp k0, c1, c2), w) | _ => (c, []) end.
  Fixpoint xpow (e : positive) (w : list Z) : (Z * Z * Z) * list Z :=
    match e with
    | xH => ((0, 1, 0), w)
    | xO e => let '(c, w) := xpow e w in red3 (sq3 c) w
    | xI e => let '(c, w) := xpow e w in let '(c, w) := red3 (sq3 c) w in red1 (tx3 c) w
    end.
  (** (u0 + u1 x) f + (v0 + v1 x + v2 x^2) g = 1 modulo p, g = x^p - x *)
  Definition root_check (w : list Z) (u0 u1 v0 v1 v2 : Z) : bool :=
    let '(g0, g1', g2) := fst (xpow (Z.to_pos p) w) in
    let g1 := g1' - 1 in
    let z x := x mod p =? 0 in
    z (u0 * b + v0 * g0 - 1) && z (u0 * a + u1 * b + v0 * g1 + v1 * g0) && z (u1 * a + v0 * g2 + v1 * g1 + v2 * g0)
    && z (u0 + v1 * g2 + v2 * g1) && z (u1 + v2 * g2).

  Variable x : Z.
  Let ev (c : Z * Z * Z) : Z := let '(c0, c1, c2) := c in c0 + c1 * x + c2 * (x * x).
  Let f := x * x * x + a * x + b.
  Hypothesis Hf : (p | f).
  Definition good3 (c : Z * Z * Z) (e : positive) : Prop := (p | ev c - x ^ Z.pos e).
  Lemma sq3_ok c e : good3 c e -> good3 (sq3 c) (xO e).
  Proof.
    unfold good3. rewrite pow_xO. set (y := x ^ Z.pos e). clearbody y. destruct c as [[c0 c1] c2]. intros [t T]. destruct Hf as [s S]. unfold sq3, ev in *. rewrite !zmul_ok.
    exists (t * (c0 + c1 * x + c2 * (x * x) + y) - (2 * (c1 * c2) + c2 * c2 * x) * s).
    replace ((t * (c0 + c1 * x + c2 * (x * x) + y) - (2 * (c1 * c2) + c2 * c2 * x) * s) * p) with ((t * p) * (c0 + c1 * x + c2 * (x * x) + y) - (2 * (c1 * c2) + c2 * c2 * x) * (s * p)) by ring.
    rewrite <- T, <- S. unfold f. ring.
  Qed.
  Lemma tx3_ok c e : good3 c (xO e) -> good3 (tx3 c) (xI e).
  Proof.
    unfold good3. rewrite pow_xI, pow_xO. set (y := x ^ Z.pos e * x ^ Z.pos e). clearbody y. destruct c as [[c0 c1] c2]. intros [t T]. destruct Hf as [s S]. unfold tx3, ev in *. rewrite !zmul_ok.
    exists (t * x - c2 * s). replace ((t * x - c2 * s) * p) with ((t * p) * x - c2 * (s * p)) by ring. rewrite <- T, <- S. unfold f. ring.
  Qed.
  Lemma red3_ok c w e : good3 c e -> good3 (fst (red3 c w)) e.
  Proof.
    unfold good3. destruct c as [[c0 c1] c2]. intros [t T]. destruct w as [|k0 [|k1 [|k2 w]]]; cbn [red3 fst]; try (exists t; exact T). rewrite !mp_ok. unfold ev in *.
    exists (t - k0 - k1 * x - k2 * (x * x)). replace ((t - k0 - k1 * x - k2 * (x * x)) * p) with (t * p - k0 * p - k1 * p * x - k2 * p * (x * x)) by ring. rewrite <- T. ring.
  Qed.
  Lemma red1_ok c w e : good3 c e -> good3 (fst (red1 c w)) e.
  Proof.
    unfold good3. destruct c as [[c0 c1] c2]. intros [t T]. destruct w as [|k0 w]; cbn [red1 fst]; try (exists t; exact T). rewrite !mp_ok. unfold ev in *.
    exists (t - k0). replace ((t - k0) * p) with (t * p - k0 * p) by ring. rewrite <- T. ring.
  Qed.
  Lemma xpow_ok e : forall w, good3 (fst (xpow e w)) e.
  Proof.
    induction e as [e IH|e IH|]; intro w; cbn [xpow].
    - specialize (IH w). destruct (xpow e w) as [c w1]. cbn [fst] in IH. pose proof (red3_ok _ w1 _ (sq3_ok c e IH)) as R. destruct (red3 (sq3 c) w1) as [c1 w2]. cbn [fst] in R. apply red1_ok, tx3_ok, R.
    - specialize (IH w). destruct (xpow e w) as [c w1]. cbn [fst] in IH. apply red3_ok, sq3_ok, IH.
    - unfold good3, ev. cbn [fst]. rewrite Z.pow_1_r. exists 0. ring.
  Qed.
  Hypothesis Hp : prime p.
  Lemma fermat_any : (p | x ^ p - x).
  Proof.
    pose proof (prime_ge_2 p Hp). replace (x ^ p) with (x ^ (p - 1) * x). 2:{ rewrite Z.mul_comm, <- Z.pow_succ_r by lia. f_equal. lia. }
    replace (x ^ (p - 1) * x - x) with (x * (x ^ (p - 1) - 1)) by ring.
    destruct (Zdivide_dec p x) as [D|D]; [apply Z.divide_mul_l; exact D|apply Z.divide_mul_r].
    apply divide_mod_eq; [lia|]. rewrite (fermat1 p x Hp D), Z.mod_1_l by lia. reflexivity.
  Qed.
  Theorem root_ok w u0 u1 v0 v1 v2 : root_check w u0 u1 v0 v1 v2 = true -> False.
  Proof.
    pose proof (prime_ge_2 p Hp) as P2. unfold root_check. pose proof (xpow_ok (Z.to_pos p) w) as X. destruct (fst (xpow (Z.to_pos p) w)) as [[g0 g1'] g2]. intro H.
    unfold good3 in X. rewrite Z2Pos.id in X by lia. pose proof (Z.divide_add_r _ _ _ X fermat_any) as G. replace (ev (g0, g1', g2) - x ^ p + (x ^ p - x)) with (g0 + (g1' - 1) * x + g2 * (x * x)) in G by (unfold ev; ring).
    clear X. cbv zeta in H. set (g1 := g1' - 1) in *. clearbody g1. clear g1'. rewrite !andb_true_iff in H. destruct H as ((((H0 & H1) & H2) & H3) & H4).
    apply Z.eqb_eq, Z.mod_divide in H0, H1, H2, H3, H4; try (clear - P2; lia).
    assert (D : (p | 1)).
    { replace 1 with ((u0 + u1 * x) * f + (v0 + v1 * x + v2 * (x * x)) * (g0 + g1 * x + g2 * (x * x)) - ((u0 * b + v0 * g0 - 1) + (u0 * a + u1 * b + v0 * g1 + v1 * g0) * x + (u1 * a + v0 * g2 + v1 * g1 + v2 * g0) * (x * x) + (u0 + v1 * g2 + v2 * g1) * (x * x * x) + (u1 + v2 * g2) * (x * x * x * x))) by (unfold f; ring).
      apply Z.divide_sub_r; [apply Z.divide_add_r; apply Z.divide_mul_r; assumption|].
      apply Z.divide_add_r; [|apply Z.divide_mul_l; exact H4]. apply Z.divide_add_r; [|apply Z.divide_mul_l; exact H3]. apply Z.divide_add_r; [|apply Z.divide_mul_l; exact H2]. apply Z.divide_add_r; [exact H0|apply Z.divide_mul_l; exact H1]. }
    apply Z.divide_1_r in D. clear - D P2. lia.
  Qed.
End Root.

(** the case a = 0: -b is not a cube *)
Section Cube.
  Variables p b : Z.
  Variable mp : Z -> Z.
  Hypothesis mp_ok : forall k, mp k = k * p.
  Definition cube_check (w : list Z) : bool :=
    let r := fst (pw mp (- b) (Z.to_pos ((p - 1) / 3)) w) in
    (3 <? p) && ((p - 1) mod 3 =? 0) && negb (b mod p =? 0) && (1 <? r) && (r <? p).
  Hypothesis Hp : prime p.
  Theorem cube_ok w x : cube_check w = true -> (p | x * x * x + b) -> False.
  Proof.
    unfold cube_check. cbv zeta. intros H D. rewrite !andb_true_iff in H. destruct H as ((((H0 & H1) & H2) & H3) & H4). apply Z.ltb_lt in H0, H3, H4. apply Z.eqb_eq in H1. apply negb_true_iff, Z.eqb_neq in H2.
    apply Z.mod_divide in H1; [|lia]. destruct H1 as [e E]. assert (e0 : 0 <= e) by lia. assert (p0 : 0 < p) by lia. rewrite E, Z.div_mul in * by lia. pose proof (pw_ok p mp mp_ok (- b) (Z.to_pos e) w) as W. rewrite Z2Pos.id in W by lia.
    set (r := fst (pw mp (- b) (Z.to_pos e) w)) in *. clearbody r.
    assert (NX : ~ (p | x)). { intro V. apply H2. apply Z.mod_divide; [lia|]. replace b with (x * x * x + b - x * (x * x)) by ring. apply Z.divide_sub_r; [exact D|apply Z.divide_mul_l; exact V]. }
    assert (C : ((- b) ^ e) mod p = (x * x * x) ^ e mod p). { apply mod_pow; [exact e0|exact p0|]. symmetry. apply divide_mod_eq; [lia|]. replace (x * x * x - - b) with (x * x * x + b) by ring. exact D. }
    replace (x * x * x) with (x ^ 3) in C by ring. rewrite <- Z.pow_mul_r, (Z.mul_comm 3), <- E, (fermat1 p x Hp NX) in C by (exact e0 || discriminate).
    apply divide_mod_eq in W; [|exact p0]. rewrite C, Z.mod_small in W by (clear - H3 H4; lia). clear - H3 W. lia.
  Qed.
End Cube.

(** the case p = 1 modulo 3, by the formula of Cardano: with 27 t^2 the
    discriminant, 4 (t - b) is a cube if there is a root *)
Section Cardano.
  Variables p a b : Z.
  Variable mp : Z -> Z.
  Hypothesis mp_ok : forall k, mp k = k * p.
  Definition cardano_check (t : Z) (w : list Z) : bool :=
    let c := (4 * (t - b)) mod p in
    let r := fst (pwb mp c (Z.to_pos ((p - 1) / 3)) w) in
    (3 <? p) && ((p - 1) mod 3 =? 0) && negb (c =? 0) && (1 <? r) && (r <? p)
    && ((27 * (t * t) - (27 * (b * b) + 4 * (a * a * a))) mod p =? 0) && negb ((27 * (b * b) + 4 * (a * a * a)) mod p =? 0).
  Hypothesis Hp : prime p.
  Theorem cardano_ok t ws x : cardano_check t ws = true -> (p | x * x * x + a * x + b) -> False.
  Proof.
    unfold cardano_check. cbv zeta. intros H D. rewrite !andb_true_iff in H. destruct H as ((((((H0 & H1) & H2) & H3) & H4) & H5) & H6). apply Z.ltb_lt in H0, H3, H4. apply Z.eqb_eq in H1, H5. apply negb_true_iff, Z.eqb_neq in H2, H6.
    apply Z.mod_divide in H1; [|lia]. destruct H1 as [e E]. assert (e0 : 0 <= e) by lia. assert (p0 : 0 < p) by lia. rewrite E, Z.div_mul in * by lia. pose proof (pwb_ok p mp mp_ok ((4 * (t - b)) mod p) (Z.to_pos e) ws) as W. rewrite Z2Pos.id in W by lia.
    set (c := (4 * (t - b)) mod p) in *. set (r := fst (pwb mp c (Z.to_pos e) ws)) in *. clearbody r. apply Z.mod_divide in H5; [|lia].
    set (m := 3 * (x * x) + a). set (dd := 27 * (b * b) + 4 * (a * a * a)) in *. destruct D as [s S].
    assert (I1 : (p | dd - m * m * (3 * (x * x) + 4 * a))).
    { exists (s * (27 * b - 27 * (x * x * x) - 27 * a * x)). replace (s * (27 * b - 27 * (x * x * x) - 27 * a * x) * p) with ((s * p) * (27 * b - 27 * (x * x * x) - 27 * a * x)) by ring. rewrite <- S. unfold dd, m. ring. }
    assert (NM : ~ (p | m)).
    { intro V. apply H6. apply Z.mod_divide; [lia|]. replace dd with ((dd - m * m * (3 * (x * x) + 4 * a)) + m * (m * (3 * (x * x) + 4 * a))) by ring. apply Z.divide_add_r; [exact I1|apply Z.divide_mul_l; exact V]. }
    pose proof (minv_ok p Hp m NM) as MI. set (mi := minv p m) in *. clearbody mi.
    assert (M : (p | m * mi - 1)). { apply divide_mod_eq; [lia|]. rewrite Z.mul_comm, MI, Z.mod_1_l by lia. reflexivity. }
    assert (N3 : forall k, (p | 3 * k) -> (p | k)). { intros k V. apply prime_mult in V; [|exact Hp]. destruct V as [V|V]; [|exact V]. apply Z.divide_pos_le in V; lia. }
    set (w := 3 * t * mi).
    assert (A : (p | 3 * (w * w) - 3 * (x * x) - 4 * a)).
    { assert (V : (p | m * (m * (3 * (w * w) - 3 * (x * x) - 4 * a)))).
      { replace (m * (m * (3 * (w * w) - 3 * (x * x) - 4 * a))) with ((m * mi - 1) * (27 * (t * t) * (m * mi + 1)) + (27 * (t * t) - dd) + (dd - m * m * (3 * (x * x) + 4 * a))) by (unfold w; ring).
        apply Z.divide_add_r; [apply Z.divide_add_r; [apply Z.divide_mul_l; exact M|exact H5]|exact I1]. }
      apply prime_mult in V; [|exact Hp]. destruct V as [V|V]; [contradiction|]. apply prime_mult in V; [|exact Hp]. destruct V as [V|V]; [contradiction|exact V]. }
    assert (B : (p | (x + w) * (x + w) * (x + w) - 4 * (t - b))).
    { apply N3. replace (3 * ((x + w) * (x + w) * (x + w) - 4 * (t - b))) with ((3 * (w * w) - 3 * (x * x) - 4 * a) * (3 * x + w) + 12 * (x * x * x + a * x + b) + (m * mi - 1) * (12 * t)) by (unfold w, m; ring).
      apply Z.divide_add_r; [apply Z.divide_add_r; [apply Z.divide_mul_l; exact A|rewrite S; exists (12 * s); ring]|apply Z.divide_mul_l; exact M]. }
    set (y := x + w) in *. clearbody y.
    assert (CE : c = (y * y * y) mod p). { symmetry. apply divide_mod_eq; [lia|exact B]. }
    assert (NX : ~ (p | y)). { intro V. apply H2. rewrite CE. apply Z.mod_divide; [lia|]. apply Z.divide_mul_r. exact V. }
    assert (CC : (c ^ e) mod p = (y * y * y) ^ e mod p). { apply mod_pow; [exact e0|exact p0|]. rewrite CE. apply Zmod_mod. }
    replace (y * y * y) with (y ^ 3) in CC by ring. rewrite <- Z.pow_mul_r, (Z.mul_comm 3), <- E, (fermat1 p y Hp NX) in CC by (exact e0 || discriminate).
    apply divide_mod_eq in W; [|exact p0]. rewrite CC, Z.mod_small in W by (clear - H3 H4; lia). clear - H3 W. lia.
  Qed.
End Cardano.

(** then no point has order two, and no multiple of a point *)
Lemma no_root_no_order2 p a b P : good_curve p a b -> (forall x, ~ (p | x * x * x + a * x + b)) -> on_curve p a b P -> no_order2 p a P.
Proof.
  intros HG NR HP k x Hk E. pose proof (ec_mul_on p a b HG k P HP Hk) as O. rewrite E in O. destruct O as (X & Y & O). apply (NR x).
  destruct HG as (_ & P2 & _). apply Zmod_divide; [lia|]. rewrite <- O. reflexivity.
Qed.
