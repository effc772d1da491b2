(** Executable model of the number-theoretic routines built on the arithmetic
    core: exponentiation, gcd, lcm, modular inverse, square root. *)
From Verif Require Import Base MpiModel MpiMulModel MpiDivModel.

(** src/mpi/mpi_pvt.h:70-72 cry_mpi_is_bit_set; a read at or above [used] is
    out of the digits the object defines. *)
Definition is_bit_set (a : mpi) (bit : Z) : res bool :=
  let k := Z.to_nat (bit / 64) in
  if (k <? used a)%nat
  then Ok (negb (Z.land (nth k (dg a) 0) (Z.shiftl 1 (bit mod 64)) =? 0))
  else UB.

(** src/mpi/mpi_mod_exp.c:20,24: reduction, when a modulus is given. *)
Definition reduce (m : option mpi) (x : mpi) : res mpi :=
  match m with None => Ok x | Some m => mod_ x m end.

(** src/mpi/mpi_mod_exp.c:18-27: the loop over the exponent bits [k]-1 .. 0.
    The squaring is in place: the result is built in a fresh temporary, whose
    sign is 0, and swapped in (src/mpi/mpi_sqr_comba.c:18-21 and 84-87). *)
Fixpoint me_loop (k : nat) (b e : mpi) (m : option mpi) (x : mpi) : res mpi :=
  match k with
  | O => Ok x
  | S k' =>
      do x <- sqr false x;
      do x <- reduce m x;
      do s <- is_bit_set e (Z.of_nat k');
      if s then
        do x <- mul (neg x) x b;
        do x <- reduce m x;
        me_loop k' b e m x
      else me_loop k' b e m x
  end.

(** src/mpi/mpi_mod_exp.c:6-32 *)
Definition mod_exp_gen (b e : mpi) (m : option mpi) : res mpi :=
  if neg e || (match m with None => false | Some m => neg m end) then Err (-1)
  else me_loop (Z.to_nat (count_bits e)) b e m mone.

Definition mod_exp (b e m : mpi) : res mpi := mod_exp_gen b e (Some m).

(** src/mpi/mpi_exp.c:3-6 *)
Definition exp (b e : mpi) : res mpi := mod_exp_gen b e None.

(** src/mpi/mpi_gcd.c:13-16: trailing zero bits of one digit, from bit [j]. *)
Fixpoint ctz (n : nat) (j d : Z) : Z :=
  match n with
  | O => 0
  | S n' => if Z.land (Z.shiftr d j) 1 =? 0 then 1 + ctz n' (j + 1) d else 0
  end.

(** src/mpi/mpi_gcd.c:7-18.  When every digit in use is zero the code reads one
    digit past them; [junk] is what it finds there. *)
Fixpoint lsb_list (l : list Z) (junk : Z) : Z :=
  match l with
  | [] => ctz 64 0 junk
  | d :: r => if d =? 0 then 64 + lsb_list r junk else ctz 64 0 d
  end.
Definition lsb (x : mpi) (junk : Z) : Z := lsb_list (dg x) junk.

(** src/mpi/mpi_gcd.c:46-60 *)
Fixpoint gcd_loop (fuel : nat) (jx jy : Z) (tx ty : mpi) : res mpi :=
  if is_zero tx then Ok ty
  else match fuel with
       | O => Fuel
       | S f =>
           let tx := shr tx (lsb tx jx) in
           let ty := shr ty (lsb ty jy) in
           if 0 <=? cmp_abs tx ty then
             do tx <- sub_abs tx ty;
             gcd_loop f jx jy (shr tx 1) ty
           else
             do ty <- sub_abs ty tx;
             gcd_loop f jx jy tx (shr ty 1)
       end.

(** src/mpi/mpi_gcd.c:24-65; [jx], [jy] are the uninitialised first digits of
    the two temporaries, read when an operand is zero.  Fuel: each round at
    least halves the product of the two temporaries. *)
Definition gcd (jx jy : Z) (x y : mpi) : res mpi :=
  let lz := Z.min (lsb x jx) (lsb y jy) in
  do ty <- gcd_loop (S (Z.to_nat (count_bits x + count_bits y))) jx jy (shr x lz) (shr y lz);
  Ok (shl ty lz).

(** src/mpi/mpi_lcm.c:6-19 *)
Definition lcm (jx jy : Z) (x y : mpi) : res mpi :=
  do g <- gcd jx jy x y;
  do p <- mul false x y;
  do ' (q, _) <- div_gen false p g;
  Ok q.

(** src/mpi/mpi_inv.c:25-36.  The code ignores the return codes; the calls
    cannot fail here (the divisor is non-zero), so the model propagates them. *)
Fixpoint inv_loop (fuel : nat) (r0 r1 s0 s1 : mpi) : res (mpi * mpi) :=
  if is_zero r1 then Ok (r0, s0)
  else match fuel with
       | O => Fuel
       | S f =>
           do ' (q, r2) <- div r0 r1;
           do q <- mul (neg q) q s1;
           do s2 <- sub s0 q;
           inv_loop f r1 r2 s1 s2
       end.

(** src/mpi/mpi_inv.c:11-49 *)
Definition inv (a m : mpi) : res mpi :=
  do ' (r0, s0) <- inv_loop (S (S (Z.to_nat (2 * count_bits m)))) a m mone mzero;
  match dg r0, neg r0 with
  | [1], false => if neg s0 then mod_ s0 m else Ok s0
  | _, _ => Err (-1)
  end.

(** src/mpi/mpi_sqrt.c:82-88: one Newton step; returns the new [t1] and [t2]. *)
Definition sqrt_step (a t1 : mpi) : res (mpi * mpi) :=
  do ' (t2, _) <- div_gen false a t1;
  do t <- add t1 t2;
  Ok (shr t 1, t2).

(** src/mpi/mpi_sqrt.c:81-89 *)
Fixpoint sqrt_loop (fuel : nat) (a t1 : mpi) : res mpi :=
  match fuel with
  | O => Fuel
  | S f =>
      do ' (t1, t2) <- sqrt_step a t1;
      if 0 <? cmp_abs t1 t2 then sqrt_loop f a t1 else Ok t1
  end.

(** src/mpi/mpi_sqrt.c:51-95 *)
Definition sqrt (a : mpi) : res mpi :=
  if neg a then Err (-1)
  else if is_zero a then Ok mzero
  else
    let t1 := shrd a (used a / 2) in
    do ' (t1, _) <- sqrt_step a t1;
    sqrt_loop (S (S (Z.to_nat (count_bits a)))) a t1.

(** src/misc.c:14-22.  [val], [mod], r0, r1, q are unsigned long; s0, s1 are
    long.  q*s1 is computed modulo 2^64, and the assignment back to the signed
    s0 is the two's complement conversion gcc documents. *)
Definition to_long (z : Z) : Z :=
  let u := z mod B in if u <? B / 2 then u else u - B.

Fixpoint long_inv_loop (fuel : nat) (r0 r1 s0 s1 : Z) : res (Z * Z) :=
  if r1 =? 0 then Ok (r0, s0)
  else match fuel with
       | O => Fuel
       | S f => let q := r0 / r1 in
                long_inv_loop f r1 (r0 mod r1) s1 (to_long (s0 - q * s1))
       end.

(** src/misc.c:5-28 *)
Definition long_inv (v m : Z) : res Z :=
  do ' (r0, s0) <- long_inv_loop 130 v m 1 0;
  let s0 := if negb (r0 =? 1) then 0
            else if s0 <? 0 then to_long (s0 + m) else s0 in
  Ok (s0 mod B).
