(** A checker for n G = O on a given curve: sums of doubled points, with the
    slopes and quotients given. *)
From Coq Require Import ZArith Znumtheory Lia List Bool.
From Verif Require Import FastMul NumTh Fermat EcSpec EcZ.
Import ListNotations.
Open Scope Z_scope.

(** slope and the three quotients *)
Definition slope : Type := Z * Z * Z * Z.
Inductive step := Dbl (s : slope) | Plus (s : slope) | Minus (s : slope).

Section Check.
  Variables p a b : Z.
  Variable mp : Z -> Z.
  Hypothesis mp_ok : forall k, mp k = k * p.

  (** the third point, by quotients *)
  Definition third (l k2 k3 x1 y1 x2 : Z) : option (Z * Z) :=
    let x3 := zmul l l - x1 - x2 - mp k2 in
    let y3 := zmul l (x1 - x3) - y1 - mp k3 in
    if (0 <=? x3) && (x3 <? p) && (0 <=? y3) && (y3 <? p) then Some (x3, y3) else None.
  Definition double (P : Z * Z) (s : slope) : option (Z * Z) :=
    let '(x, y) := P in
    let '(l, k1, k2, k3) := s in
    if (0 <? y) && (zmul l (2 * y) =? 3 * zmul x x + a + mp k1) then third l k2 k3 x y x else None.
  Definition sum (P Q : Z * Z) (s : slope) : option (Z * Z) :=
    let '(x1, y1) := P in
    let '(x2, y2) := Q in
    let '(l, k1, k2, k3) := s in
    if negb (x1 =? x2) && (zmul l (x2 - x1) =? y2 - y1 + mp k1) then third l k2 k3 x1 y1 x2 else None.

  (** multiples of G: the point 2^i G and two sums *)
  Record state := { cm : Z; cD : Z * Z; pm : Z; pS : option (Z * Z); mm : Z; mS : option (Z * Z) }.
  Definition into (A : option (Z * Z)) (D : Z * Z) (s : slope) : option (Z * Z) :=
    match A with None => Some D | Some A => sum A D s end.
  Definition do_step (st : state) (s : step) : option state :=
    match s with
    | Dbl s => match double (cD st) s with None => None | Some D => Some {| cm := 2 * cm st; cD := D; pm := pm st; pS := pS st; mm := mm st; mS := mS st |} end
    | Plus s => match into (pS st) (cD st) s with None => None | Some A => Some {| cm := cm st; cD := cD st; pm := pm st + cm st; pS := Some A; mm := mm st; mS := mS st |} end
    | Minus s => match into (mS st) (cD st) s with None => None | Some A => Some {| cm := cm st; cD := cD st; pm := pm st; pS := pS st; mm := mm st + cm st; mS := Some A |} end
    end.
  Fixpoint steps (st : state) (l : list step) : option state :=
    match l with [] => Some st | s :: l => match do_step st s with None => None | Some st => steps st l end end.
  Definition order_check (G : Z * Z) (n : Z) (l : list step) : bool :=
    match steps {| cm := 1; cD := G; pm := 0; pS := None; mm := 0; mS := None |} l with
    | None => false
    | Some st =>
        match pS st, mS st with
        | Some (x, y), Some (x', y') => (x =? x') && (y =? y') && (pm st - mm st =? n) && (0 <? n)
        | _, _ => false
        end
    end.

  Hypothesis good : good_curve p a b.
  Let Pp : prime p := proj1 good.
  Let p2 : 2 < p := proj1 (proj2 good).

  Lemma some_inj (A : Type) (x y : A) : Some x = Some y -> x = y.
  Proof. congruence. Qed.
  Arguments some_inj {A x y}.
  Lemma third_ok l m k2 k3 x1 y1 x2 P : (l - m) mod p = 0 -> third l k2 k3 x1 y1 x2 = Some P -> ec_third p m x1 y1 x2 = Some P.
  Proof.
    intros E H. unfold third in H. cbv zeta in H. destruct (andb _ _) eqn:C in H; [|discriminate]. injection H as <-. rewrite !andb_true_iff in C. destruct C as (((C1 & C2) & C3) & C4).
    apply Z.leb_le in C1, C3. apply Z.ltb_lt in C2, C4. rewrite !zmul_ok, !mp_ok in *. unfold ec_third. cbv zeta.
    assert (LM : (p | l - m)) by (apply Zmod_divide; [clear - p2; lia|exact E]). destruct LM as [c LM].
    set (x3 := l * l - x1 - x2 - k2 * p) in *. set (y3 := l * (x1 - x3) - y1 - k3 * p) in *.
    assert (X : (m * m - x1 - x2) mod p = x3).
    { rewrite <- (Z.mod_small x3 p) by (split; assumption). apply divide_mod_eq; [clear - p2; lia|]. exists (k2 - c * (l + m)). unfold x3. replace (m * m) with (l * l - (l - m) * (l + m)) by ring. rewrite LM. ring. }
    rewrite X. do 2 f_equal. rewrite <- (Z.mod_small y3 p) by (split; assumption). apply divide_mod_eq; [clear - p2; lia|]. exists (k3 - c * (x1 - x3)). unfold y3. replace m with (l - c * p) by lia. ring.
  Qed.
  Lemma slope_ok l d num k1 : ~ (p | d) -> l * d = num + k1 * p -> (l - num * minv p d) mod p = 0.
  Proof.
    intros D E. pose proof (minv_ok p Pp d D) as I. apply Zdivide_mod. assert (P0 : 0 < p) by (clear - p2; lia).
    assert (V : (p | minv p d * d - 1)). { apply divide_mod_eq; [exact P0|]. rewrite I, Z.mod_1_l by (clear - p2; lia). reflexivity. }
    destruct V as [c V]. exists (k1 * minv p d - l * c). replace num with (l * d - k1 * p) by lia.
    replace (l - (l * d - k1 * p) * minv p d) with (k1 * minv p d * p - l * (minv p d * d - 1)) by ring. rewrite V. ring.
  Qed.
  Lemma double_ok P s D : on_curve p a b (Some P) -> double P s = Some D -> ec_add p a (Some P) (Some P) = Some D.
  Proof.
    destruct P as [x y], s as [[[l k1] k2] k3]. cbn [double on_curve ec_add]. intros (X & Y & _) H. destruct (andb _ _) eqn:C in H; [|discriminate]. apply andb_true_iff in C. destruct C as [C1 C2].
    apply Z.ltb_lt in C1. apply Z.eqb_eq in C2. rewrite ?zmul_ok, mp_ok in C2. rewrite Z.eqb_refl.
    assert (ND : ~ (p | 2 * y)). { intro V. apply prime_mult in V; [|exact Pp]. destruct V as [V|V]; apply Z.divide_pos_le in V; clear - V p2 Y C1; lia. }
    destruct (Z.eqb_spec ((y + y) mod p) 0) as [E|_]. { exfalso. apply ND. apply Zmod_divide in E; [|clear - p2; lia]. replace (2 * y) with (y + y) by ring. exact E. }
    eapply third_ok; [|exact H]. exact (slope_ok l (2 * y) (3 * (x * x) + a) k1 ND C2).
  Qed.
  Lemma sum_ok P Q s D : on_curve p a b (Some P) -> on_curve p a b (Some Q) -> sum P Q s = Some D -> ec_add p a (Some P) (Some Q) = Some D.
  Proof.
    destruct P as [x1 y1], Q as [x2 y2], s as [[[l k1] k2] k3]. cbn [sum on_curve ec_add]. intros (X1 & Y1 & _) (X2 & Y2 & _) H. destruct (andb _ _) eqn:C in H; [|discriminate]. apply andb_true_iff in C. destruct C as [C1 C2].
    apply Z.eqb_eq in C2. rewrite ?zmul_ok, mp_ok in C2. destruct (Z.eqb_spec x1 x2) as [|N]; [discriminate|].
    assert (ND : ~ (p | x2 - x1)). { intros [c V]. assert (c = 0 \/ c <= -1 \/ 1 <= c) by lia. clear - V H0 X1 X2 N p2. nia. }
    eapply third_ok; [|exact H]. exact (slope_ok l (x2 - x1) (y2 - y1) k1 ND C2).
  Qed.

  Variable G : Z * Z.
  Hypothesis HG : on_curve p a b (Some G).
  Let mul (k : Z) := ec_mul p a k (Some G).
  Definition fits (m : Z) (A : option (Z * Z)) : Prop := 0 <= m /\ A = mul m.
  Definition inv (st : state) : Prop := 0 < cm st /\ Some (cD st) = mul (cm st) /\ fits (pm st) (pS st) /\ fits (mm st) (mS st).
  Lemma mul_on k : 0 <= k -> on_curve p a b (mul k).
  Proof. intro. apply (ec_mul_on p a b good); auto. Qed.
  Lemma into_ok A D s R m c : fits m A -> 0 < c -> Some D = mul c -> into A D s = Some R -> fits (m + c) (Some R).
  Proof.
    intros [M E] Hc ED H. split; [lia|]. unfold mul. rewrite (ec_mul_add p a b good) by (auto; lia). fold (mul m) (mul c). rewrite <- E, <- ED.
    destruct A as [A|]; cbn [into] in H; [|injection H as <-; reflexivity]. symmetry. apply (sum_ok A D s); auto.
    - rewrite E. apply mul_on; exact M.
    - rewrite ED. apply mul_on. lia.
  Qed.
  Lemma do_step_ok st s st' : inv st -> do_step st s = Some st' -> inv st'.
  Proof.
    intros (C & D & P & M) H. destruct s as [s|s|s]; cbn [do_step] in H.
    - destruct (double (cD st) s) as [Q|] eqn:E; [|discriminate]. apply some_inj in H. subst st'. unfold inv. cbn [cm cD pm pS mm mS]. split; [lia|]. split; [|split; assumption].
      replace (2 * cm st) with (cm st + cm st) by ring. unfold mul. rewrite (ec_mul_add p a b good) by (auto; lia). fold (mul (cm st)). rewrite <- D. symmetry. apply (double_ok _ s); auto. rewrite D. apply mul_on. lia.
    - destruct (into (pS st) (cD st) s) as [Q|] eqn:E; [|discriminate]. injection H as <-. unfold inv. cbn [cm cD pm pS mm mS]. split; [exact C|]. split; [exact D|]. split; [|exact M]. eapply into_ok; eauto.
    - destruct (into (mS st) (cD st) s) as [Q|] eqn:E; [|discriminate]. injection H as <-. unfold inv. cbn [cm cD pm pS mm mS]. split; [exact C|]. split; [exact D|]. split; [exact P|]. eapply into_ok; eauto.
  Qed.
  Lemma steps_ok l : forall st st', inv st -> steps st l = Some st' -> inv st'.
  Proof.
    induction l as [|s l IH]; intros st st' I H; cbn [steps] in H; [injection H as <-; exact I|].
    destruct (do_step st s) as [st1|] eqn:E; [|discriminate]. apply (IH st1); auto. eapply do_step_ok; eauto.
  Qed.
  Theorem order_ok n l : order_check G n l = true -> ec_mul p a n (Some G) = None.
  Proof.
    unfold order_check. destruct (steps _ l) as [st|] eqn:E; [|discriminate]. intro H.
    assert (I : inv st). { eapply steps_ok; [|exact E]. split; [cbn; lia|]. cbn [cm cD pm pS mm mS]. split; [unfold mul; symmetry; apply ec_mul_1|]. split; split; reflexivity || lia. }
    destruct I as (C & D & [P1 P2] & [M1 M2]). destruct (pS st) as [[x y]|]; [|discriminate]. destruct (mS st) as [[x' y']|]; [|discriminate].
    rewrite !andb_true_iff in H. destruct H as (((H1 & H2) & H3) & H4). apply Z.eqb_eq in H1, H2, H3. apply Z.ltb_lt in H4. subst x' y'.
    assert (Sm : ec_add p a (mul n) (mul (mm st)) = mul (mm st)).
    { unfold mul at 1 2. rewrite <- (ec_mul_add p a b good) by (auto; lia). replace (n + mm st) with (pm st) by lia. fold (mul (pm st)). congruence. }
    assert (N0 : 0 <= n) by lia. assert (T : ec_add p a (ec_add p a (mul n) (mul (mm st))) (ec_neg p (mul (mm st))) = None) by (rewrite Sm; apply (ec_add_neg p a b good), mul_on; exact M1).
    rewrite (ec_add_assoc p a b good) in T by (try apply mul_on; try apply (ec_neg_on p a b good), mul_on; assumption). rewrite (ec_add_neg p a b good), ec_add_0_r in T by (apply mul_on; exact M1). exact T.
  Qed.
End Check.
