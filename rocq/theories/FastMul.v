(** Multiplication four bits of a factor at a time.  It computes the product with
    fewer steps than Z.mul, which matters for the certificates of the curves. *)
From Coq Require Import ZArith Lia.
Open Scope Z_scope.
Section Window.
  Variables t1 t3 t5 t7 t9 t11 t13 t15 : positive.
  Fixpoint win (x : positive) : positive :=
    match x with
    | xH => t1
    | xO x => xO (win x)
    | xI xH => t3
    | xI (xO xH) => t5
    | xI (xI xH) => t7
    | xI (xO (xO xH)) => t9
    | xI (xI (xO xH)) => t11
    | xI (xO (xI xH)) => t13
    | xI (xI (xI xH)) => t15
    | xI (xO (xO (xO x))) => Pos.add t1 (win x)~0~0~0~0
    | xI (xI (xO (xO x))) => Pos.add t3 (win x)~0~0~0~0
    | xI (xO (xI (xO x))) => Pos.add t5 (win x)~0~0~0~0
    | xI (xI (xI (xO x))) => Pos.add t7 (win x)~0~0~0~0
    | xI (xO (xO (xI x))) => Pos.add t9 (win x)~0~0~0~0
    | xI (xI (xO (xI x))) => Pos.add t11 (win x)~0~0~0~0
    | xI (xO (xI (xI x))) => Pos.add t13 (win x)~0~0~0~0
    | xI (xI (xI (xI x))) => Pos.add t15 (win x)~0~0~0~0
    end.
End Window.
Definition pmul (x y : positive) : positive :=
  let y2 := xO y in let y3 := Pos.add y y2 in let y5 := Pos.add y3 y2 in let y7 := Pos.add y5 y2 in
  let y9 := Pos.add y7 y2 in let y11 := Pos.add y9 y2 in let y13 := Pos.add y11 y2 in let y15 := Pos.add y13 y2 in
  win y y3 y5 y7 y9 y11 y13 y15 x.
Definition zmul (x y : Z) : Z :=
  match x, y with
  | Z0, _ => Z0
  | _, Z0 => Z0
  | Zpos x, Zpos y => Zpos (pmul x y)
  | Zpos x, Zneg y => Zneg (pmul x y)
  | Zneg x, Zpos y => Zneg (pmul x y)
  | Zneg x, Zneg y => Zpos (pmul x y)
  end.
Lemma win_ok y x : win y (y * 3) (y * 5) (y * 7) (y * 9) (y * 11) (y * 13) (y * 15) x = (x * y)%positive.
Proof.
  revert x. fix IH 1. intro x.
  destruct x as [x|x|]; [destruct x as [x|x|]; [destruct x as [x|x|]; [destruct x as [x|x|]| destruct x as [x|x|]|]|destruct x as [x|x|]; [destruct x as [x|x|]| destruct x as [x|x|]|]|]| |];
    cbn [win]; try rewrite (IH x); clear IH; lia.
Qed.
Lemma zmul_ok x y : zmul x y = x * y.
Proof.
  assert (H : forall x y, pmul x y = (x * y)%positive).
  { clear. intros x y. unfold pmul. rewrite <- win_ok. cbv zeta. f_equal; lia. }
  destruct x, y; cbn [zmul Z.mul]; rewrite ?H; reflexivity.
Qed.
