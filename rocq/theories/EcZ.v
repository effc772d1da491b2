(** The law of EcSpec is that of EcGroup over the field of integers modulo p. *)
From Coq Require Import ZArith Znumtheory Lia Field Eqdep_dec.
From Verif Require Import NumTh Fermat EcSpec EcGroup.
Open Scope Z_scope.

(** * The field *)
Section Fp.
Variable p : Z.
Hypothesis Hp : prime p.
Let Hpos : 1 < p. Proof. destruct Hp. lia. Qed.
Definition Fp : Type := {x : Z | x mod p = x}.
Definition fv (a : Fp) : Z := proj1_sig a.
Lemma fp_eq (a b : Fp) : fv a = fv b -> a = b.
Proof.
  destruct a as [x Hx], b as [y Hy]. cbn. intros <-. f_equal. apply UIP_dec, Z.eq_dec.
Qed.
Definition mk (x : Z) : Fp := exist _ (x mod p) (Zmod_mod x p).
Lemma fv_mk x : fv (mk x) = x mod p. Proof. reflexivity. Qed.
Lemma mk_fv a : mk (fv a) = a. Proof. apply fp_eq. rewrite fv_mk. exact (proj2_sig a). Qed.
Lemma mk_eq x y : mk x = mk y <-> x mod p = y mod p.
Proof. split; [intro H; apply (f_equal fv) in H; exact H|]. intro H. apply fp_eq. exact H. Qed.
Lemma fv_range a : 0 <= fv a < p. Proof. destruct a as [x H]. cbn. rewrite <- H. apply Z.mod_pos_bound. lia. Qed.
Definition fadd a b := mk (fv a + fv b).
Definition fmul a b := mk (fv a * fv b).
Definition fsub a b := mk (fv a - fv b).
Definition fopp a := mk (- fv a).
Definition finv a := mk (minv p (fv a)).
Definition fdiv a b := mk (fv a * minv p (fv b)).
Lemma mm x : (x mod p) mod p = x mod p. Proof. apply Zmod_mod. Qed.
Lemma mk_add x y : mk (x + y) = fadd (mk x) (mk y). Proof. apply mk_eq. rewrite !fv_mk. apply mod_add; [lia|symmetry; apply mm..]. Qed.
Lemma mk_sub x y : mk (x - y) = fsub (mk x) (mk y). Proof. apply mk_eq. rewrite !fv_mk. apply mod_sub; [lia|symmetry; apply mm..]. Qed.
Lemma mk_mul x y : mk (x * y) = fmul (mk x) (mk y). Proof. apply mk_eq. rewrite !fv_mk. apply mod_mul; [lia|symmetry; apply mm..]. Qed.
Lemma mk_opp x : mk (- x) = fopp (mk x).
Proof. apply mk_eq. rewrite !fv_mk. replace (- x) with (0 - x) by lia. replace (- (x mod p)) with (0 - x mod p) by lia. apply mod_sub; [lia|reflexivity|symmetry; apply mm]. Qed.
Lemma mk_inv x : mk (minv p x) = finv (mk x).
Proof. apply mk_eq. unfold minv. rewrite !mm. rewrite fv_mk. apply mod_pow; [lia..|]. symmetry; apply mm. Qed.
Lemma fdiv_eq a b : fdiv a b = fmul a (finv b).
Proof. apply mk_eq. unfold finv. rewrite fv_mk. apply mod_mul; [lia|reflexivity|symmetry; apply mm]. Qed.
Lemma mk_mod x : mk (x mod p) = mk x. Proof. apply mk_eq, mm. Qed.
Lemma mk_pick a : exists x, a = mk x. Proof. exists (fv a). symmetry. apply mk_fv. Qed.
Lemma minv_ok x : ~ (p | x) -> (minv p x * x) mod p = 1.
Proof.
  intro N. unfold minv. rewrite Z.mul_mod_idemp_l by lia. replace (x ^ (p - 2) * x) with (x ^ (p - 1)); [apply fermat1; auto|].
  replace (p - 1) with (p - 2 + 1) by lia. rewrite Z.pow_add_r by lia. rewrite Z.pow_1_r. reflexivity.
Qed.
Lemma mk_0 x : mk x = mk 0 <-> (p | x).
Proof. rewrite mk_eq, divide_mod_eq by lia. rewrite Z.sub_0_r. reflexivity. Qed.
Lemma fp_field : field_theory (mk 0) (mk 1) fadd fmul fsub fopp fdiv finv (@eq Fp).
Proof.
  constructor.
  - constructor; intros;
      repeat match goal with a : Fp |- _ => let x := fresh "v" in destruct (mk_pick a) as [x ->]; clear a end;
      rewrite <- ?mk_add, <- ?mk_mul, <- ?mk_opp, <- ?mk_sub; rewrite <- ?mk_add, <- ?mk_mul, <- ?mk_opp, <- ?mk_sub; rewrite <- ?mk_add, <- ?mk_mul; f_equal; ring.
  - intro H. apply mk_0 in H. apply Z.divide_1_r_nonneg in H; lia.
  - intros. apply fdiv_eq.
  - intros a N. destruct (mk_pick a) as [x ->]. rewrite <- mk_inv, <- mk_mul. apply mk_eq. rewrite minv_ok; [symmetry; apply Z.mod_small; lia|].
    intro D. apply N, mk_0, D.
Qed.
Lemma fp_dec (a b : Fp) : {a = b} + {a <> b}.
Proof. destruct (Z.eq_dec (fv a) (fv b)) as [E|E]; [left; apply fp_eq, E|right; intros ->; apply E; reflexivity]. Qed.
End Fp.

(** * Transfer *)
Section Curve.
Variables p a b : Z.
Hypothesis G : good_curve p a b.
Let Hp : prime p. Proof. exact (proj1 G). Qed.
Let Hpos : 2 < p. Proof. exact (proj1 (proj2 G)). Qed.
Local Notation K := (Fp p).
Local Notation m := (mk p).
Local Notation KP := (option (K * K)).
Definition kpt (P : ecpoint) : KP := match P with None => None | Some (x, y) => Some (m x, m y) end.
Definition kadd := padd K (m 0) (m 1) (fadd p) (fmul p) (fsub p) (fdiv p) (fp_dec p) (m a).
Definition kon := on K (fadd p) (fmul p) (m a) (m b).
Definition kneg := neg K (fopp p).
Definition reduced (P : ecpoint) : Prop := match P with None => True | Some (x, y) => 0 <= x < p /\ 0 <= y < p end.
Lemma kpt_inj P Q : reduced P -> reduced Q -> kpt P = kpt Q -> P = Q.
Proof.
  destruct P as [[x1 y1]|], Q as [[x2 y2]|]; cbn [kpt reduced]; try discriminate; auto. intros [A1 A2] [B1 B2] E.
  injection E as E1 E2. rewrite !Z.mod_small in * by lia. subst. reflexivity.
Qed.
Lemma on_kpt P : on_curve p a b P <-> reduced P /\ kon (kpt P).
Proof.
  destruct P as [[x y]|]; [|cbn; tauto]. cbn [on_curve reduced kpt kon on]. unfold kon, on. rewrite <- !(mk_mul p Hp), <- !(mk_add p Hp), (mk_eq p). tauto.
Qed.
Lemma two_ok : fadd p (m 1) (m 1) <> m 0.
Proof. rewrite <- (mk_add p Hp). intro H. apply (mk_0 p Hp) in H. apply Z.divide_pos_le in H; lia. Qed.
Lemma add_reduced P Q : reduced P -> reduced Q -> reduced (ec_add p a P Q).
Proof.
  destruct P as [[x1 y1]|], Q as [[x2 y2]|]; cbn [ec_add]; try tauto. intros _ _.
  assert (forall l, reduced (ec_third p l x1 y1 x2)) by (intro l; cbn; split; apply Z.mod_pos_bound; lia).
  destruct (x1 =? x2); auto. destruct ((y1 + y2) mod p =? 0); [exact Logic.I|auto].
Qed.
Lemma third_kpt l x1 y1 x2 : kpt (ec_third p l x1 y1 x2) = third K (fmul p) (fsub p) (m l) (m x1) (m y1) (m x2).
Proof. cbn [kpt ec_third third]. unfold third. rewrite !(mk_mod p), !(mk_sub p Hp), !(mk_mul p Hp), !(mk_sub p Hp), !(mk_mod p), !(mk_sub p Hp), !(mk_mul p Hp). reflexivity. Qed.
Lemma add_kpt P Q : reduced P -> reduced Q -> kpt (ec_add p a P Q) = kadd (kpt P) (kpt Q).
Proof.
  destruct P as [[x1 y1]|], Q as [[x2 y2]|]; try reflexivity. cbn [reduced]. intros [A1 A2] [B1 B2]. unfold kadd. cbn [kpt ec_add padd].
  destruct (Z.eqb_spec x1 x2) as [E|E].
  - destruct (fp_dec p (m x1) (m x2)) as [|N]; [|exfalso; apply N; rewrite E; reflexivity].
    rewrite <- (mk_add p Hp). destruct (Z.eqb_spec ((y1 + y2) mod p) 0) as [Z|Z].
    + destruct (fp_dec p (m (y1 + y2)) (m 0)) as [|N]; [reflexivity|]. exfalso. apply N. apply mk_eq. rewrite Z. reflexivity.
    + destruct (fp_dec p (m (y1 + y2)) (m 0)) as [Q|_]; [exfalso; apply Z; apply mk_eq in Q; exact Q|].
      rewrite third_kpt. f_equal. rewrite (fdiv_eq p Hp). change (3 * (x1 * x1)) with ((2 + 1) * (x1 * x1)). change 2 with (1 + 1).
      rewrite !(mk_mul p Hp), (mk_inv p Hp), !(mk_add p Hp), !(mk_mul p Hp), !(mk_add p Hp). reflexivity.
  - destruct (fp_dec p (m x1) (m x2)) as [Q|_]; [exfalso; apply E; apply mk_eq in Q; rewrite !Z.mod_small in Q by lia; exact Q|].
    rewrite third_kpt. f_equal. rewrite (fdiv_eq p Hp), (mk_mul p Hp), (mk_inv p Hp), !(mk_sub p Hp). reflexivity.
Qed.
Lemma neg_kpt P : kpt (ec_neg p P) = kneg (kpt P).
Proof. destruct P as [[x y]|]; [|reflexivity]. cbn. unfold kneg, neg. rewrite (mk_mod p), (mk_opp p Hp). reflexivity. Qed.
Lemma neg_reduced P : reduced P -> reduced (ec_neg p P).
Proof. destruct P as [[x y]|]; auto. cbn. intros [A _]. split; [exact A|]. apply Z.mod_pos_bound. lia. Qed.
Lemma ns : fadd p (fmul p (fmul p (fadd p (m 1) (m 1)) (fadd p (m 1) (m 1))) (fmul p (fmul p (m a) (m a)) (m a)))
  (fmul p (fmul p (fmul p (fadd p (fadd p (m 1) (m 1)) (m 1)) (fadd p (fadd p (m 1) (m 1)) (m 1))) (fadd p (fadd p (m 1) (m 1)) (m 1))) (fmul p (m b) (m b))) <> m 0.
Proof.
  rewrite <- !(mk_add p Hp), <- !(mk_mul p Hp), <- !(mk_add p Hp). intro H. apply mk_eq in H. destruct G as (_ & _ & N). apply N. rewrite Z.mod_0_l in H by lia. rewrite <- H. reflexivity.
Qed.
Local Notation red P H := (proj1 (proj1 (on_kpt P) H)).
Local Notation kk P H := (proj2 (proj1 (on_kpt P) H)).
Theorem ec_add_on P Q : on_curve p a b P -> on_curve p a b Q -> on_curve p a b (ec_add p a P Q).
Proof.
  intros H1 H2. apply on_kpt. split; [apply add_reduced; [exact (red P H1)|exact (red Q H2)]|].
  rewrite add_kpt by (exact (red P H1) || exact (red Q H2)). apply (add_on _ _ _ _ _ _ _ _ _ (fp_field p Hp) (fp_dec p) (m a) (m b) two_ok); [exact (kk P H1)|exact (kk Q H2)].
Qed.
Theorem ec_neg_on P : on_curve p a b P -> on_curve p a b (ec_neg p P).
Proof.
  intros H1. apply on_kpt. split; [apply neg_reduced; exact (red P H1)|]. rewrite neg_kpt.
  apply (neg_on _ _ _ _ _ _ _ _ _ (fp_field p Hp) (m a) (m b)). exact (kk P H1).
Qed.
Theorem ec_add_comm P Q : on_curve p a b P -> on_curve p a b Q -> ec_add p a P Q = ec_add p a Q P.
Proof.
  intros H1 H2. pose proof (red P H1) as R1. pose proof (red Q H2) as R2. apply kpt_inj; try (apply add_reduced; assumption).
  rewrite !add_kpt by assumption. apply (add_comm _ _ _ _ _ _ _ _ _ (fp_field p Hp) (fp_dec p) (m a) (m b) two_ok); [exact (kk P H1)|exact (kk Q H2)].
Qed.
Theorem ec_add_assoc P Q R : on_curve p a b P -> on_curve p a b Q -> on_curve p a b R ->
  ec_add p a (ec_add p a P Q) R = ec_add p a P (ec_add p a Q R).
Proof.
  intros H1 H2 H3. pose proof (red P H1) as R1. pose proof (red Q H2) as R2. pose proof (red R H3) as R3.
  apply kpt_inj; try (repeat apply add_reduced; assumption).
  rewrite !add_kpt by (try assumption; apply add_reduced; assumption).
  apply (add_assoc _ _ _ _ _ _ _ _ _ (fp_field p Hp) (fp_dec p) (m a) (m b) two_ok ns); [exact (kk P H1)|exact (kk Q H2)|exact (kk R H3)].
Qed.
Theorem ec_add_0_l P : ec_add p a None P = P. Proof. reflexivity. Qed.
Theorem ec_add_0_r P : ec_add p a P None = P. Proof. destruct P as [[x y]|]; reflexivity. Qed.
Theorem ec_add_neg P : on_curve p a b P -> ec_add p a P (ec_neg p P) = None.
Proof.
  intro H1. pose proof (red P H1) as R1. apply kpt_inj; [apply add_reduced; [|apply neg_reduced]; exact R1|exact Logic.I|].
  rewrite add_kpt, neg_kpt by (try apply neg_reduced; exact R1). apply (add_neg _ _ _ _ _ _ _ _ _ (fp_field p Hp) (fp_dec p) (m a)).
Qed.

(** * Multiples *)
Lemma ec_mul_0 P : ec_mul p a 0 P = None. Proof. reflexivity. Qed.
Lemma ec_mul_S k P : 0 <= k -> ec_mul p a (k + 1) P = ec_add p a P (ec_mul p a k P).
Proof.
  intro H. unfold ec_mul. destruct k as [|q|q]; [reflexivity| |lia]. replace (Zpos q + 1) with (Zpos (Pos.succ q)) by lia.
  cbn [Z.iter]. apply Pos.iter_succ.
Qed.
Lemma ec_mul_1 P : ec_mul p a 1 P = P. Proof. cbn. apply ec_add_0_r. Qed.
Lemma ec_mul_on k P : on_curve p a b P -> 0 <= k -> on_curve p a b (ec_mul p a k P).
Proof.
  intros H Hk. pattern k. apply natlike_ind; [exact Logic.I| |exact Hk]. intros x Hx IH. rewrite <- Z.add_1_r, ec_mul_S by exact Hx. apply ec_add_on; auto.
Qed.
Theorem ec_mul_add j k P : on_curve p a b P -> 0 <= j -> 0 <= k -> ec_mul p a (j + k) P = ec_add p a (ec_mul p a j P) (ec_mul p a k P).
Proof.
  intros H Hj Hk. pattern j. apply natlike_ind; [reflexivity| |exact Hj]. intros x Hx IH. rewrite <- Z.add_1_r.
  replace (x + 1 + k) with (x + k + 1) by lia. rewrite !ec_mul_S by lia. rewrite IH. symmetry. apply ec_add_assoc; auto using ec_mul_on.
Qed.
Theorem ec_mul_mul j k P : on_curve p a b P -> 0 <= j -> 0 <= k -> ec_mul p a j (ec_mul p a k P) = ec_mul p a (j * k) P.
Proof.
  intros H Hj Hk. pattern j. apply natlike_ind; [reflexivity| |exact Hj]. intros x Hx IH. rewrite <- Z.add_1_r, ec_mul_S, IH by lia.
  rewrite <- ec_mul_add by lia || auto || nia. f_equal. lia.
Qed.
Lemma ec_mul_None k : ec_mul p a k None = None.
Proof. unfold ec_mul. destruct k as [|q|q]; try reflexivity. cbn [Z.iter]. apply Pos.iter_invariant; [|reflexivity]. intros x ->. reflexivity. Qed.
Theorem ec_mul_period n j k P : on_curve p a b P -> 0 < n -> ec_mul p a n P = None -> 0 <= j -> 0 <= k -> j mod n = k mod n -> ec_mul p a j P = ec_mul p a k P.
Proof.
  intros H Hn E Hj Hk M. assert (R : forall x, 0 <= x -> ec_mul p a x P = ec_mul p a (x mod n) P).
  { intros x Hx. rewrite (Z.div_mod x n) at 1 by lia. pose proof (Z.mod_pos_bound x n Hn). pose proof (Z.div_pos x n Hx Hn).
    rewrite ec_mul_add by (auto; nia). rewrite Z.mul_comm, <- ec_mul_mul, E, ec_mul_None by (auto; lia). reflexivity. }
  rewrite (R j), (R k), M by auto. reflexivity.
Qed.
Theorem ec_mul_dist k P Q : on_curve p a b P -> on_curve p a b Q -> 0 <= k -> ec_mul p a k (ec_add p a P Q) = ec_add p a (ec_mul p a k P) (ec_mul p a k Q).
Proof.
  intros H1 H2 Hk. pattern k. apply natlike_ind; [reflexivity| |exact Hk]. intros x Hx IH. rewrite <- Z.add_1_r, !ec_mul_S, IH by lia.
  assert (A1 := ec_mul_on x P H1 Hx). assert (A2 := ec_mul_on x Q H2 Hx).
  rewrite !ec_add_assoc by auto using ec_add_on. f_equal. rewrite <- !ec_add_assoc by auto using ec_add_on. f_equal. apply ec_add_comm; auto.
Qed.
(** a point of odd order has no multiple of order two *)
Lemma order2 x : on_curve p a b (Some (x, 0)) -> ec_add p a (Some (x, 0)) (Some (x, 0)) = None.
Proof. intros _. cbn [ec_add]. rewrite Z.eqb_refl. rewrite Z.mod_0_l by lia. reflexivity. Qed.
Theorem odd_no_order2 P : on_curve p a b P -> odd_order p a P -> no_order2 p a P.
Proof.
  intros H (n & Hn & O & E) k x Hk Ex. set (Q := ec_mul p a k P) in *. assert (HQ : on_curve p a b Q) by (apply ec_mul_on; auto).
  assert (E2 : ec_mul p a 2 Q = None).
  { change 2 with (1 + 1). rewrite ec_mul_add, !ec_mul_1 by (auto; lia). rewrite Ex in *. apply order2. exact HQ. }
  assert (En : ec_mul p a n Q = None) by (unfold Q; rewrite ec_mul_mul, Z.mul_comm, <- ec_mul_mul, E by (auto; lia); apply ec_mul_None).
  assert (E1 : ec_mul p a 1 Q = ec_mul p a n Q).
  { apply (ec_mul_period 2); auto; try lia. rewrite (Zmod_odd n), O. reflexivity. }
  rewrite ec_mul_1, En, Ex in E1. discriminate.
Qed.
End Curve.
