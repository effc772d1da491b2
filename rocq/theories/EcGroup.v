(** The chord and tangent law on a curve y^2 = x^3 + A x + B over a field is a
    commutative group law.  Two points that are not inverse to each other are
    joined by one line (the tangent if they are equal); [L] says that l is its
    slope, in a form that covers both cases. *)
From Coq Require Import Ring Field List.

Section Group.
Variables (K : Type) (k0 k1 : K) (kadd kmul ksub : K -> K -> K) (kopp : K -> K) (kdiv : K -> K -> K) (kinv : K -> K).
Hypothesis Kf : field_theory k0 k1 kadd kmul ksub kopp kdiv kinv (@eq K).
Hypothesis Kdec : forall a b : K, {a = b} + {a <> b}.
Add Field KF : Kf.
Declare Scope K_scope.
Delimit Scope K_scope with K.
Local Open Scope K_scope.
Local Infix "+" := kadd : K_scope.
Local Infix "*" := kmul : K_scope.
Local Infix "-" := ksub : K_scope.
Local Infix "/" := kdiv : K_scope.
Local Notation "- x" := (kopp x) : K_scope.
Local Notation "0" := k0 : K_scope.
Local Notation "1" := k1 : K_scope.
Local Notation "2" := (k1 + k1) : K_scope.
Local Notation "3" := (k1 + k1 + k1) : K_scope.
Variables A B : K.
Hypothesis two : 2 <> 0.
Hypothesis nonsing : (2 * 2) * (A * A * A) + (3 * 3 * 3) * (B * B) <> 0.

Definition point := option (K * K).
Definition on (P : point) : Prop := match P with None => True | Some (x, y) => y * y = x * x * x + A * x + B end.
Definition neg (P : point) : point := match P with None => None | Some (x, y) => Some (x, - y) end.
(** the point on the line of slope l through (x1, y1), mirrored *)
Definition third (l x1 y1 x2 : K) : point := let x3 := l * l - x1 - x2 in Some (x3, l * (x1 - x3) - y1).
Definition padd (P Q : point) : point :=
  match P, Q with
  | None, _ => Q
  | _, None => P
  | Some (x1, y1), Some (x2, y2) =>
      if Kdec x1 x2 then if Kdec (y1 + y2) 0 then None else third ((3 * (x1 * x1) + A) / (2 * y1)) x1 y1 x2
      else third ((y2 - y1) / (x2 - x1)) x1 y1 x2
  end.

(** * Field facts *)
Lemma k_eq a b : a - b = 0 -> a = b. Proof. intro H. transitivity ((a - b) + b); [ring|]. rewrite H. ring. Qed.
Lemma k_sub a b : a = b -> a - b = 0. Proof. intros ->. ring. Qed.
Lemma k_integral a b : a * b = 0 -> a = 0 \/ b = 0.
Proof.
  intro H. destruct (Kdec a 0) as [|N]; [left; auto|right]. transitivity (kinv a * (a * b)); [field; auto|]. rewrite H. ring.
Qed.
Lemma k_cancel c a b : c <> 0 -> c * a = c * b -> a = b.
Proof.
  intros N H. apply k_eq. destruct (k_integral c (a - b)) as [E|E]; [|contradiction|exact E]. transitivity (c * a - c * b); [ring|]. apply k_sub, H.
Qed.
Lemma k_mul_neq a b : a <> 0 -> b <> 0 -> a * b <> 0.
Proof. intros Ha Hb H. destruct (k_integral a b H); contradiction. Qed.

(** * Lines *)
Definition L (x1 y1 x2 y2 l : K) : Prop := y1 - y2 = l * (x1 - x2) /\ l * (y1 + y2) = x1 * x1 + x1 * x2 + x2 * x2 + A.
Definition inverse (x1 y1 x2 y2 : K) : Prop := x1 = x2 /\ y1 + y2 = 0.
Lemma inverse_dec x1 y1 x2 y2 : inverse x1 y1 x2 y2 \/ ~ inverse x1 y1 x2 y2.
Proof. unfold inverse. destruct (Kdec x1 x2); [|tauto]. destruct (Kdec (y1 + y2) 0); tauto. Qed.
Lemma L_unique x1 y1 x2 y2 l l' : ~ inverse x1 y1 x2 y2 -> L x1 y1 x2 y2 l -> L x1 y1 x2 y2 l' -> l = l'.
Proof.
  intros N [H1 H2] [H1' H2']. destruct (Kdec x1 x2) as [E|E].
  - assert (Ny : y1 + y2 <> 0) by (intro; apply N; split; auto). apply (k_cancel (y1 + y2)); auto. transitivity (l * (y1 + y2)); [ring|]. rewrite H2, <- H2'. ring.
  - apply (k_cancel (x1 - x2)); [intro Z; apply E, k_eq, Z|]. transitivity (l * (x1 - x2)); [ring|]. rewrite <- H1, H1'. ring.
Qed.
Lemma L_sym x1 y1 x2 y2 l : L x1 y1 x2 y2 l -> L x2 y2 x1 y1 l.
Proof. intros [H1 H2]. split; [transitivity (- (y1 - y2)); [ring|]; rewrite H1; ring|]. transitivity (l * (y1 + y2)); [ring|]. rewrite H2. ring. Qed.
Lemma same_x x1 y1 x2 y2 : on (Some (x1, y1)) -> on (Some (x2, y2)) -> x1 = x2 -> y1 + y2 <> 0 -> y1 = y2.
Proof.
  cbn. intros H1 H2 -> N. apply k_eq. destruct (k_integral (y1 - y2) (y1 + y2)) as [E|E]; [|exact E|contradiction].
  transitivity (y1 * y1 - y2 * y2); [ring|]. rewrite H1, H2. ring.
Qed.
Lemma add_line x1 y1 x2 y2 : on (Some (x1, y1)) -> on (Some (x2, y2)) -> ~ inverse x1 y1 x2 y2 ->
  exists l, L x1 y1 x2 y2 l /\ padd (Some (x1, y1)) (Some (x2, y2)) = third l x1 y1 x2.
Proof.
  intros H1 H2 N. unfold padd. destruct (Kdec x1 x2) as [E|E].
  - destruct (Kdec (y1 + y2) 0) as [Z|Z]; [exfalso; apply N; split; auto|]. pose proof (same_x _ _ _ _ H1 H2 E Z) as Ey. subst x2 y2.
    assert (Ny : y1 <> 0) by (intro Q; apply Z; rewrite Q; ring). eexists. split; [|reflexivity].
    split; [transitivity 0; ring|]. field. auto.
  - eexists. split; [|reflexivity]. assert (Nx : x2 - x1 <> 0) by (intro Q; apply E; symmetry; apply k_eq, Q). split; [field; auto|].
    cbn in H1, H2. apply (k_cancel (x2 - x1)); auto. transitivity (y2 * y2 - y1 * y1); [field; auto|]. rewrite H1, H2. ring.
Qed.
Lemma add_inverse x1 y1 x2 y2 : inverse x1 y1 x2 y2 -> padd (Some (x1, y1)) (Some (x2, y2)) = None.
Proof. intros [E1 E2]. unfold padd. destruct (Kdec x1 x2); [|contradiction]. destruct (Kdec (y1 + y2) 0); [reflexivity|contradiction]. Qed.
Lemma third_on x1 y1 x2 y2 l : on (Some (x1, y1)) -> L x1 y1 x2 y2 l -> on (third l x1 y1 x2).
Proof.
  cbn. intros H1 [Ha Hb]. set (x3 := l * l - x1 - x2).
  (* on the line, the curve equation minus the line is (x - x1)(x - x2)(x - x3) *)
  assert (Ey : y2 = y1 - l * (x1 - x2)) by (rewrite <- Ha; ring). rewrite Ey in Hb.
  assert (EA : A = l * (y1 + (y1 - l * (x1 - x2))) - x1 * x1 - x1 * x2 - x2 * x2) by (rewrite Hb; ring).
  assert (EB : B = y1 * y1 - x1 * x1 * x1 - A * x1) by (rewrite H1; ring). rewrite EB, EA. unfold x3. ring.
Qed.
Lemma add_on P Q : on P -> on Q -> on (padd P Q).
Proof.
  destruct P as [[x1 y1]|], Q as [[x2 y2]|]; auto. intros H1 H2. destruct (inverse_dec x1 y1 x2 y2) as [I|N].
  - rewrite add_inverse by auto. exact Logic.I.
  - destruct (add_line x1 y1 x2 y2 H1 H2 N) as (l & Hl & ->). apply (third_on x1 y1 x2 y2 l); auto.
Qed.
Lemma neg_on P : on P -> on (neg P).
Proof. destruct P as [[x y]|]; auto. cbn. intro H. rewrite <- H. ring. Qed.
Lemma neg_neg P : neg (neg P) = P.
Proof. destruct P as [[x y]|]; auto. cbn. f_equal. f_equal. ring. Qed.
(** any slope satisfying [L] gives the sum *)
Lemma add_any x1 y1 x2 y2 l : on (Some (x1, y1)) -> on (Some (x2, y2)) -> ~ inverse x1 y1 x2 y2 -> L x1 y1 x2 y2 l ->
  padd (Some (x1, y1)) (Some (x2, y2)) = third l x1 y1 x2.
Proof. intros H1 H2 N Hl. destruct (add_line x1 y1 x2 y2 H1 H2 N) as (l' & Hl' & ->). rewrite (L_unique _ _ _ _ _ _ N Hl Hl'). reflexivity. Qed.

(** * Neutral element, inverses, commutativity *)
Lemma add_0_l P : padd None P = P. Proof. reflexivity. Qed.
Lemma add_0_r P : padd P None = P. Proof. destruct P as [[x y]|]; reflexivity. Qed.
Lemma add_neg P : padd P (neg P) = None.
Proof. destruct P as [[x y]|]; [|reflexivity]. apply add_inverse. split; [reflexivity|ring]. Qed.
Lemma add_comm P Q : on P -> on Q -> padd P Q = padd Q P.
Proof.
  destruct P as [[x1 y1]|], Q as [[x2 y2]|]; try reflexivity. intros H1 H2. destruct (inverse_dec x1 y1 x2 y2) as [I|N].
  - rewrite add_inverse by auto. symmetry. apply add_inverse. destruct I as [E1 E2]. split; [auto|]. transitivity (y1 + y2); [ring|auto].
  - destruct (add_line x1 y1 x2 y2 H1 H2 N) as (l & Hl & ->). symmetry. rewrite (add_any x2 y2 x1 y1 l); auto using L_sym.
    + unfold third. assert (Ex : l * l - x2 - x1 = l * l - x1 - x2) by ring. rewrite Ex. f_equal. f_equal. destruct Hl as [Ha _]. apply k_eq.
      transitivity ((y1 - y2) - l * (x1 - x2)); [ring|]. rewrite Ha. ring.
    + intros [E1 E2]. apply N. split; [auto|]. transitivity (y2 + y1); [ring|auto].
Qed.
Lemma neg_add P Q : on P -> on Q -> neg (padd P Q) = padd (neg P) (neg Q).
Proof.
  destruct P as [[x1 y1]|], Q as [[x2 y2]|]; try reflexivity. intros H1 H2. destruct (inverse_dec x1 y1 x2 y2) as [I|N].
  - rewrite add_inverse by auto. symmetry. apply add_inverse. destruct I as [E1 E2]. split; [auto|]. transitivity (- (y1 + y2)); [ring|]. rewrite E2. ring.
  - destruct (add_line x1 y1 x2 y2 H1 H2 N) as (l & Hl & ->). cbn [neg]. rewrite (add_any x1 (- y1) x2 (- y2) (- l)).
    + unfold third, neg. assert (Ex : - l * - l - x1 - x2 = l * l - x1 - x2) by ring. rewrite Ex. f_equal. f_equal. ring.
    + apply (neg_on (Some (x1, y1)) H1).
    + apply (neg_on (Some (x2, y2)) H2).
    + intros [E1 E2]. apply N. split; [auto|]. transitivity (- (- y1 + - y2)); [ring|]. rewrite E2. ring.
    + destruct Hl as [Ha Hb]. split; [transitivity (- (y1 - y2)); [ring|]; rewrite Ha; ring|rewrite <- Hb; ring].
Qed.

(** * Cancellation; here the curve has to be without singular point *)
Lemma not_singular x : x * x * x + A * x + B = 0 -> 3 * (x * x) + A = 0 -> False.
Proof.
  intros H1 H2. apply nonsing. assert (EA : A = - (3 * (x * x))) by (apply k_eq; rewrite <- H2; ring).
  assert (EB : B = 2 * (x * x * x)) by (apply k_eq; rewrite <- H1, EA; ring). rewrite EB, EA. ring.
Qed.
Lemma cancel P R : on P -> on R -> padd (neg P) (padd P R) = R.
Proof.
  intros HP HR. destruct P as [[x1 y1]|]; [|reflexivity]. destruct R as [[x3 y3]|]; [|rewrite add_0_r; rewrite add_comm; [apply add_neg|apply neg_on; auto|auto]].
  destruct (inverse_dec x1 y1 x3 y3) as [I|N].
  { rewrite add_inverse by auto. destruct I as [E1 E2]. rewrite add_0_r. cbn. f_equal. f_equal; [auto|]. apply k_eq. transitivity (- (y1 + y3)); [ring|]. rewrite E2. ring. }
  destruct (add_line x1 y1 x3 y3 HP HR N) as (l & Hl & ES). rewrite ES. pose proof (third_on x1 y1 x3 y3 l HP Hl) as HS. destruct Hl as [Ha Hb].
  unfold third in *. set (xs := l * l - x1 - x3) in *. set (ys := l * (x1 - xs) - y1) in *. cbn [neg].
  assert (Ey : y3 = y1 - l * (x1 - x3)) by (rewrite <- Ha; ring).
  destruct (inverse_dec x1 (- y1) xs ys) as [[E1 E2]|N'].
  - exfalso. assert (Y0 : y1 = 0).
    { apply (k_cancel 2); auto. transitivity (- (- y1 + ys) + l * (x1 - xs)); [unfold ys; ring|]. rewrite E2, E1. ring. }
    apply (not_singular x1); [cbn in HP; rewrite <- HP, Y0; ring|].
    assert (E3 : x3 = l * l - x1 - x1) by (unfold xs in E1; apply k_eq; transitivity (x1 - (l * l - x1 - x3)); [ring|]; apply k_sub, E1).
    rewrite Ey, Y0, E3 in Hb. symmetry. transitivity ((x1 * x1 + x1 * (l * l - x1 - x1) + (l * l - x1 - x1) * (l * l - x1 - x1) + A) - l * (0 + (0 - l * (x1 - (l * l - x1 - x1))))).
    + rewrite Hb. ring.
    + ring.
  - rewrite (add_any x1 (- y1) xs ys (- l)).
    + unfold third. assert (Ex : - l * - l - x1 - xs = x3) by (unfold xs; ring). rewrite Ex. f_equal. f_equal. rewrite Ey. ring.
    + apply (neg_on (Some (x1, y1)) HP).
    + exact HS.
    + exact N'.
    + split; [unfold ys; ring|]. rewrite Ey in Hb. apply k_eq. transitivity (l * (y1 + (y1 - l * (x1 - x3))) - (x1 * x1 + x1 * x3 + x3 * x3 + A)); [unfold ys, xs; ring|]. rewrite Hb. ring.
Qed.

(** * Associativity *)
Lemma assoc_generic x1 y1 x2 y2 x3 y3 l m : on (Some (x1, y1)) -> on (Some (x2, y2)) -> on (Some (x3, y3)) ->
  ~ inverse x1 y1 x2 y2 -> ~ inverse x2 y2 x3 y3 -> L x1 y1 x2 y2 l -> L x2 y2 x3 y3 m ->
  forall xs ys xt yt, third l x1 y1 x2 = Some (xs, ys) -> third m x2 y2 x3 = Some (xt, yt) ->
  ~ inverse xs ys x3 y3 -> ~ inverse x1 y1 xt yt ->
  padd (Some (xs, ys)) (Some (x3, y3)) = padd (Some (x1, y1)) (Some (xt, yt)).
Proof.
  intros H1 H2 H3 N12 N23 Hl Hm xs ys xt yt ES ET NS NT.
  assert (HS : on (Some (xs, ys))) by (rewrite <- ES; apply (third_on x1 y1 x2 y2); auto).
  assert (HT : on (Some (xt, yt))) by (rewrite <- ET; apply (third_on x2 y2 x3 y3); auto).
  pose proof Hl as [La Lb]. pose proof Hm as [Ma Mb].
  assert (Ey1 : y1 = y2 + l * (x1 - x2)) by (rewrite <- La; ring). assert (Ey3 : y3 = y2 + m * (x3 - x2)) by (apply k_eq; transitivity (m * (x2 - x3) - (y2 - y3)); [ring|rewrite Ma; ring]).
  unfold third in ES, ET. injection ES as Exs Eys. injection ET as Ext Eyt.
  set (a := x1 + x2 + x3 - l * l). set (b := m * m - (x1 + x2 + x3)).
  (* the relation between the two lines *)
  assert (REL : 2 * y2 * (l - m) = a * (x1 - x2) + b * (x3 - x2)).
  { rewrite Ey1 in Lb. rewrite Ey3 in Mb. apply k_eq. unfold a, b.
    transitivity ((l * (y2 + l * (x1 - x2) + y2) - (x1 * x1 + x1 * x2 + x2 * x2 + A)) - (m * (y2 + (y2 + m * (x3 - x2))) - (x2 * x2 + x2 * x3 + x3 * x3 + A))); [ring|]. rewrite Lb, Mb. ring. }
  destruct (Kdec l m) as [Elm|Nlm].
  - (* one line *)
    assert (Z : a * (x1 - x3) = 0) by (subst m; transitivity (2 * y2 * (l - l)); [|ring]; rewrite REL; unfold a, b; ring).
    destruct (k_integral _ _ Z) as [Ea|Ex].
    + exfalso. apply NS. split.
      * rewrite <- Exs. apply k_eq. transitivity (- a); [unfold a; ring|]. rewrite Ea. ring.
      * assert (Ex3 : x3 = l * l - x1 - x2) by (apply k_eq; transitivity a; [unfold a; ring|exact Ea]). rewrite <- Eys, Ey3, Ey1, Ex3, <- Elm. ring.
    + assert (E13 : x1 = x3) by (apply k_eq, Ex). assert (Eyy : y1 = y3) by (rewrite Ey1, Ey3, E13, Elm; reflexivity).
      (* R = P *)
      assert (Est : (xs, ys) = (xt, yt)).
      { rewrite <- Exs, <- Eys, <- Ext, <- Eyt, <- Elm, <- E13. f_equal; [ring|]. rewrite Ey1. ring. }
      injection Est as -> ->. rewrite <- E13, <- Eyy. apply add_comm; auto.
  - set (k := (x1 - x3) / (l - m)). assert (Nd : l - m <> 0) by (intro Q; apply Nlm, k_eq, Q).
    assert (Ek : x1 = x3 + k * (l - m)) by (unfold k; field; auto).
    assert (Ew : 2 * y2 = a * k - (l + m) * (x3 - x2)).
    { apply (k_cancel (l - m)); auto. transitivity (2 * y2 * (l - m)); [ring|]. rewrite REL. unfold a, b. rewrite Ek. ring. }
    assert (Ey2 : y2 = (a * k - (l + m) * (x3 - x2)) / 2) by (rewrite <- Ew; field; auto).
    rewrite Ey3 in Mb. assert (EA : A = m * (y2 + (y2 + m * (x3 - x2))) - (x2 * x2 + x2 * x3 + x3 * x3)) by (rewrite Mb; ring).
    clearbody k. unfold a in Ey2. clear - Kf two Ek Ey2 EA Exs Eys Ext Eyt Ey1 Ey3 HS HT H1 H3 NS NT.
    assert (LS : L xs ys x3 y3 (k - l)).
    { rewrite <- Eys, <- Exs, Ey3, Ey1. split; [|rewrite EA]; rewrite Ey2, Ek; field; auto. }
    assert (LT : L x1 y1 xt yt (k - m)).
    { rewrite <- Eyt, <- Ext, Ey1. split; [|rewrite EA]; rewrite Ey2, Ek; field; auto. }
    rewrite (add_any _ _ _ _ _ HS H3 NS LS), (add_any _ _ _ _ _ H1 HT NT LT). unfold third.
    assert (Ex : (k - l) * (k - l) - xs - x3 = (k - m) * (k - m) - x1 - xt) by (rewrite <- Exs, <- Ext, Ek; ring).
    rewrite <- Ex. f_equal. f_equal. rewrite <- Eys, <- Exs, Ey1, Ey2, Ek. field; auto.
Qed.
Theorem add_assoc P Q R : on P -> on Q -> on R -> padd (padd P Q) R = padd P (padd Q R).
Proof.
  intros HP HQ HR. destruct P as [[x1 y1]|]; [|reflexivity]. destruct Q as [[x2 y2]|]; [|rewrite add_0_r; reflexivity].
  destruct R as [[x3 y3]|]; [|rewrite !add_0_r; reflexivity].
  destruct (inverse_dec x1 y1 x2 y2) as [I|N12].
  { (* Q = - P *) rewrite add_inverse by auto. rewrite add_0_l. destruct I as [-> E].
    assert (EP : Some (x2, y1) = neg (Some (x2, y2))) by (cbn; f_equal; f_equal; apply k_eq; rewrite <- E; ring).
    rewrite EP. symmetry. apply cancel; auto. }
  destruct (inverse_dec x2 y2 x3 y3) as [I|N23].
  { rewrite (add_inverse x2 y2 x3 y3) by auto. rewrite add_0_r. destruct I as [<- E].
    assert (EP : Some (x2, y3) = neg (Some (x2, y2))) by (cbn; f_equal; f_equal; apply k_eq; rewrite <- E; ring).
    rewrite EP. rewrite (add_comm (Some (x1, y1))) by auto. rewrite add_comm; [apply cancel; auto|apply add_on; auto|apply neg_on; auto]. }
  destruct (add_line x1 y1 x2 y2 HP HQ N12) as (l & Hl & ES). destruct (add_line x2 y2 x3 y3 HQ HR N23) as (m & Hm & ET).
  pose proof (add_on _ _ HP HQ) as HS. pose proof (add_on _ _ HQ HR) as HT.
  destruct (third l x1 y1 x2) as [[xs ys]|] eqn:ES'; [|discriminate ES']. destruct (third m x2 y2 x3) as [[xt yt]|] eqn:ET'; [|discriminate ET'].
  destruct (inverse_dec xs ys x3 y3) as [I|NS].
  { (* R = - (P + Q) *) rewrite ES, (add_inverse xs ys x3 y3) by auto. destruct I as [<- E].
    assert (EP : Some (xs, y3) = neg (padd (Some (x1, y1)) (Some (x2, y2)))) by (rewrite ES; cbn; f_equal; f_equal; apply k_eq; rewrite <- E; ring).
    rewrite EP, (add_comm (Some (x1, y1)) (Some (x2, y2))) by auto. rewrite neg_add by auto.
    assert (C : padd (Some (x2, y2)) (padd (neg (Some (x2, y2))) (neg (Some (x1, y1)))) = neg (Some (x1, y1))).
    { rewrite <- (neg_neg (Some (x2, y2))) at 1. apply cancel; apply neg_on; auto. }
    rewrite C. symmetry. apply add_neg. }
  destruct (inverse_dec x1 y1 xt yt) as [I|NT].
  { rewrite ET, (add_inverse x1 y1 xt yt) by auto. destruct I as [<- E].
    assert (EP : Some (x1, y1) = neg (padd (Some (x2, y2)) (Some (x3, y3)))) by (rewrite ET; cbn; f_equal; f_equal; apply k_eq; rewrite <- E; ring).
    rewrite EP, (add_comm (Some (x2, y2)) (Some (x3, y3))) by auto. rewrite neg_add by auto.
    assert (C : padd (padd (neg (Some (x3, y3))) (neg (Some (x2, y2)))) (Some (x2, y2)) = neg (Some (x3, y3))).
    { rewrite (add_comm (neg (Some (x3, y3)))) by (apply neg_on; auto). rewrite add_comm; [|apply add_on; apply neg_on; auto|auto].
      rewrite <- (neg_neg (Some (x2, y2))) at 1. apply cancel; apply neg_on; auto. }
    rewrite C. rewrite add_comm; [apply add_neg|apply neg_on; auto|auto]. }
  rewrite ES, ET. apply (assoc_generic x1 y1 x2 y2 x3 y3 l m); auto.
Qed.
End Group.
