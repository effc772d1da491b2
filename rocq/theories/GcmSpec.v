(** NIST SP 800-38D (GCM) and RFC 4493 (CMAC). *)
From Verif Require Import Base BytesSpec Poly2Spec.

(** * GF(2^128) *)
(** The bits of a byte in reverse order. *)
Definition refl8 (b : Z) : Z :=
  fold_right (fun j s => s + (if Z.testbit b (7 - j) then 2 ^ j else 0)) 0 [0; 1; 2; 3; 4; 5; 6; 7].
(** The polynomial of a block: bit j of byte i, counted from the most
    significant, is the coefficient of x^(8i+j). *)
Fixpoint gpoly (l : list Z) : Z :=
  match l with
  | [] => 0
  | b :: r => refl8 b + 256 * gpoly r
  end.
(** The block of a polynomial of degree below 128. *)
Definition gblock (p : Z) : list Z := map (fun i => refl8 ((p / 256 ^ Z.of_nat i) mod 256)) (seq 0 16).
(** x^128 + x^7 + x^2 + x + 1 *)
Definition gcm_poly : Z := 2 ^ 128 + 135.
(** Remainder of [p] (degree below 128 + n) modulo the GCM polynomial. *)
Fixpoint gcm_rem (n : nat) (p : Z) : Z :=
  match n with
  | O => p
  | S n => gcm_rem n (if Z.testbit p (128 + Z.of_nat n) then Z.lxor p (gcm_poly * 2 ^ Z.of_nat n) else p)
  end.
(** Multiplication of blocks. *)
Definition bmul (x y : list Z) : list Z := gblock (gcm_rem 128 (clmul (gpoly x) (gpoly y))).

(** * SP 800-38D *)
Definition zpad16 (l : list Z) : list Z := l ++ repeat 0 ((16 - length l mod 16) mod 16).
(** 6.4 GHASH on whole blocks *)
Definition ghash (h : list Z) (l : list Z) : list Z :=
  fold_left (fun y x => bmul (xorl y x) h) (chunks 16 l) (repeat 0 16).
(** 6.2 inc_32 *)
Definition inc32 (b : list Z) : list Z := firstn 12 b ++ be_bytes 4 (be_val (skipn 12 b) + 1).
(** 6.5 GCTR *)
Fixpoint gctr_blocks (E : list Z -> list Z) (icb : list Z) (xs : list (list Z)) : list Z :=
  match xs with
  | [] => []
  | x :: r => xorl x (E icb) ++ gctr_blocks E (inc32 icb) r
  end.
Definition gctr (E : list Z -> list Z) (icb x : list Z) : list Z := gctr_blocks E icb (chunks 16 x).
(** 7.1 steps 1-7 *)
Definition bits64 (l : list Z) : list Z := be_bytes 8 (8 * Z.of_nat (length l)).
Definition gcm_j0 (E : list Z -> list Z) (iv : list Z) : list Z :=
  if Nat.eqb (length iv) 12 then iv ++ [0; 0; 0; 1]
  else ghash (E (repeat 0 16)) (zpad16 iv ++ repeat 0 8 ++ bits64 iv).
Definition gcm_cipher (E : list Z -> list Z) (iv p : list Z) : list Z := gctr E (inc32 (gcm_j0 E iv)) p.
Definition gcm_tag (E : list Z -> list Z) (iv a c : list Z) (t : nat) : list Z :=
  firstn t (gctr E (gcm_j0 E iv) (ghash (E (repeat 0 16)) (zpad16 a ++ zpad16 c ++ bits64 a ++ bits64 c))).

(** * RFC 4493 *)
(** 2.3: multiplication by x of a 128-bit string *)
Definition cmac_mul_x (b : list Z) : list Z :=
  let v := be_val b in
  be_bytes 16 (if v <? 2 ^ 127 then 2 * v else Z.lxor ((2 * v) mod 2 ^ 128) 135).
(** 2.4: blocks before the last, then the last one *)
Definition cmac_spec (E : list Z -> list Z) (m : list Z) : list Z :=
  let k1 := cmac_mul_x (E (repeat 0 16)) in
  let k2 := cmac_mul_x k1 in
  let full := (negb (Nat.eqb (length m) 0) && Nat.eqb (length m mod 16) 0)%bool in
  let n := Nat.div (length m + 15) 16 in
  let n := if Nat.eqb n 0 then 1%nat else n in
  let lastb := skipn (16 * (n - 1)) m in
  let m_last := if full then xorl lastb k1
                else xorl (lastb ++ 128 :: repeat 0 (15 - length lastb)) k2 in
  let x := fold_left (fun x b => E (xorl x b)) (chunks 16 (firstn (16 * (n - 1)) m)) (repeat 0 16) in
  E (xorl m_last x).
