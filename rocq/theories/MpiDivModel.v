(** Executable model of bit counting and division (src/mpi/mpi_core.c,
    src/mpi/mpi_div_abs.c, src/mpi/mpi_div.c), shipped configuration
    (CRY_MPI_DIV_SMALL not defined). *)
From Verif Require Import Base MpiModel MpiMulModel.

(** src/mpi/mpi_core.c:173-190 *)
Definition bits_tab : list Z :=
  [0; 1; 2; 2; 3; 3; 3; 3; 4; 4; 4; 4; 4; 4; 4; 4; 5; 5; 5; 5; 5; 5; 5; 5; 5; 5; 5; 5; 5; 5; 5; 5;
   6; 6; 6; 6; 6; 6; 6; 6; 6; 6; 6; 6; 6; 6; 6; 6; 6; 6; 6; 6; 6; 6; 6; 6; 6; 6; 6; 6; 6; 6; 6; 6;
   7; 7; 7; 7; 7; 7; 7; 7; 7; 7; 7; 7; 7; 7; 7; 7; 7; 7; 7; 7; 7; 7; 7; 7; 7; 7; 7; 7; 7; 7; 7; 7;
   7; 7; 7; 7; 7; 7; 7; 7; 7; 7; 7; 7; 7; 7; 7; 7; 7; 7; 7; 7; 7; 7; 7; 7; 7; 7; 7; 7; 7; 7; 7; 7;
   8; 8; 8; 8; 8; 8; 8; 8; 8; 8; 8; 8; 8; 8; 8; 8; 8; 8; 8; 8; 8; 8; 8; 8; 8; 8; 8; 8; 8; 8; 8; 8;
   8; 8; 8; 8; 8; 8; 8; 8; 8; 8; 8; 8; 8; 8; 8; 8; 8; 8; 8; 8; 8; 8; 8; 8; 8; 8; 8; 8; 8; 8; 8; 8;
   8; 8; 8; 8; 8; 8; 8; 8; 8; 8; 8; 8; 8; 8; 8; 8; 8; 8; 8; 8; 8; 8; 8; 8; 8; 8; 8; 8; 8; 8; 8; 8;
   8; 8; 8; 8; 8; 8; 8; 8; 8; 8; 8; 8; 8; 8; 8; 8; 8; 8; 8; 8; 8; 8; 8; 8; 8; 8; 8; 8; 8; 8; 8; 8].

(** src/mpi/mpi_core.c:171-220, 64-bit digits. *)
Definition digit_bits (d : Z) : Z :=
  let bits i := nth (Z.to_nat i) bits_tab 0 in
  if negb (Z.land d 0xFFFFFFFF00000000 =? 0) then
    if negb (Z.land d 0xFFFF000000000000 =? 0) then
      if negb (Z.land d 0xFF00000000000000 =? 0) then bits (Z.shiftr d 56) + 56
      else bits (Z.shiftr d 48) + 48
    else if negb (Z.land d 0x0000FF0000000000 =? 0) then bits (Z.shiftr d 40) + 40
         else bits (Z.shiftr d 32) + 32
  else if negb (Z.land d 0xFFFF0000 =? 0) then
    if negb (Z.land d 0xFF000000 =? 0) then bits (Z.shiftr d 24) + 24
    else bits (Z.shiftr d 16) + 16
  else if negb (Z.land d 0xFF00 =? 0) then bits (Z.shiftr d 8) + 8
  else bits d.

(** src/mpi/mpi_core.c:226-233 *)
Definition count_bits (a : mpi) : Z :=
  match dg a with
  | [] => 0
  | l => (Z.of_nat (length l) - 1) * 64 + digit_bits (last l 0)
  end.

(** include/cry/mpi.h:178-179 cry_mpi_count_bytes *)
Definition count_bytes (a : mpi) : Z :=
  (count_bits a + 7) / 8.

(** src/mpi/mpi_div_abs.c:126-129: [x] is reduced below [y] (already shifted up
    by n-t digits), counting into the top quotient digit. *)
Fixpoint div_top (fuel : nat) (x y : mpi) (q : Z) : res (Z * mpi) :=
  if cmp x y =? -1 then Ok (q, x)
  else match fuel with
       | O => Fuel
       | S f => do x' <- sub x y; div_top f x' y ((q + 1) mod B)
       end.

(** src/mpi/mpi_div_abs.c:162-177: the do-while correcting the estimate.  [q] is
    decremented before each test.  [t2] keeps three digits even if the top one
    is zero, as in the code. *)
Fixpoint div_refine (fuel : nat) (y1 y0 x2 x1 x0 q : Z) : res Z :=
  match fuel with
  | O => Fuel
  | S f =>
      let q := (q - 1) mod B in
      do t1 <- mul_dig false (mkmpi false [y0; y1]) q;
      if cmp_abs t1 (mkmpi false [x0; x1; x2]) =? 1
      then div_refine f y1 y0 x2 x1 x0 q
      else Ok q
  end.

(** src/mpi/mpi_div_abs.c:144-193: one quotient digit; [i] indexes the top digit
    of [x], [t] that of [y].  A digit of [x] read at index x.used is 0: every
    subtraction leaves zeroes above the digits it drops, and once x has been
    set to zero the loop skips to its end. *)
Definition div_step (i t : nat) (x y : mpi) : res (Z * mpi) :=
  let xd k := nth k (dg x) 0 in
  let yd k := nth k (dg y) 0 in
  let q0 := if xd i =? yd t then B - 1
            else let tmp := Z.lor (Z.shiftl (xd i) 64) (xd (i - 1)%nat) / yd t in
                 if B - 1 <? tmp then B - 1 else tmp in
  let y0 := if Nat.eqb t 0 then 0 else yd (t - 1)%nat in
  let x0 := if (i <=? 1)%nat then 0 else xd (i - 2)%nat in
  let x1 := if Nat.eqb i 0 then 0 else xd (i - 1)%nat in
  do q <- div_refine 8 (yd t) y0 (xd i) x1 x0 ((q0 + 1) mod B);
  do t1 <- mul_dig false y q;
  do x <- sub x (shld t1 (i - t - 1));
  if neg x then
    do x <- add x (shld y (i - t - 1));
    Ok ((q - 1) mod B, x)
  else Ok (q, x).

(** src/mpi/mpi_div_abs.c:135-194: quotient digits [k]-1 down to 0 (i = t+k),
    pushed on [acc]. *)
Fixpoint div_loop (k t : nat) (x y : mpi) (acc : list Z) : res (list Z * mpi) :=
  match k with
  | O => Ok (acc, x)
  | S k' =>
      let i := (t + k)%nat in
      if (used x <? i)%nat then div_loop k' t x y (0 :: acc)
      else do ' (q, x) <- div_step i t x y;
           div_loop k' t x y (q :: acc)
  end.

(** src/mpi/mpi_div_abs.c:77-218: quotient and remainder of the magnitudes
    (a NULL destination just drops the component). *)
Definition div_abs (a b : mpi) : res (mpi * mpi) :=
  if is_zero b then Err (-1)
  else if cmp_abs a b <? 0 then Ok (mzero, a)
  else
    let x := mkmpi false (dg a) in
    let y := mkmpi false (dg b) in
    let norm := count_bits y mod 64 in
    let norm := if norm <? 63 then 63 - norm else 0 in
    let x := if norm =? 0 then x else shl x norm in
    let y := if norm =? 0 then y else shl y norm in
    let n := (used x - 1)%nat in
    let t := (used y - 1)%nat in
    do ' (qt, x) <- div_top 4 x (shld y (n - t)) 0;
    do ' (q, x) <- div_loop (n - t) t x y [qt];
    Ok (mkmpi false (adjust q), mkmpi false (dg (shr x norm))).

(** src/mpi/mpi_div.c:3-26; [wr] tells whether the caller passes a remainder
    destination (the code dereferences it unconditionally when the signs
    differ). *)
Definition div_gen (wr : bool) (a b : mpi) : res (mpi * mpi) :=
  do ' (q, r) <- div_abs a b;
  if xorb (neg a) (neg b) then
    if negb wr then UB
    else if is_zero r then Ok (q, r)
    else
      do q <- sub (set_sign true q) mone;
      do r <- sub_abs b r;
      Ok (q, r)
  else Ok (q, r).

Definition div (a b : mpi) : res (mpi * mpi) := div_gen true a b.

(** The same routine called with the remainder destination being the divisor
    object itself: [b] already holds the remainder when line 23 reads it. *)
Definition div_rb (a b : mpi) : res (mpi * mpi) :=
  do ' (q, r) <- div_abs a b;
  if xorb (neg a) (neg b) then
    if is_zero r then Ok (q, r)
    else
      do q <- sub (set_sign true q) mone;
      do r <- sub_abs r r;
      Ok (q, r)
  else Ok (q, r).

(** include/cry/mpi.h cry_mpi_mod: cry_mpi_div(NULL, r, a, b). *)
Definition mod_ (a b : mpi) : res mpi :=
  do ' (_, r) <- div a b; Ok r.
