(** Memory-level model of exponentiation, greatest common divisor, least common
    multiple, square root and modular inverse.  [n] is the first number free for
    the automatic variables of the routine. *)
From Verif Require Import Base MpiModel MpiMulModel MpiDivModel MpiAlgModel MemModel MemMulModel MemDivModel.

(** * src/mpi/mpi_mod_exp.c *)

(** src/mpi/mpi_pvt.h:70-72 cry_mpi_is_bit_set *)
Definition bit_m (x : nat) (bit : Z) : cmd bool :=
  run d <- rd x (Z.to_nat (bit / 64));
  ret (negb (Z.land d (Z.shiftl 1 (bit mod 64)) =? 0)).
(** lines 20 and 24 *)
Definition reduce_m (n x : nat) (m : option nat) : cmd Z :=
  match m with None => ret 0 | Some m => mod_m n x x m end.
(** lines 18-27 for the exponent bits [k]-1 .. 0; the local [n] is exp *)
Fixpoint me_loop_m (k n b ex : nat) (m : option nat) : cmd Z :=
  match k with
  | O => ret 0
  | S k =>
      chk sqr_m (n + 1) n n;
      chk reduce_m (n + 1) n m;
      run t <- bit_m ex (Z.of_nat k);
      if (t : bool) then
        chk mul_m (n + 1) n n b;
        chk reduce_m (n + 1) n m;
        me_loop_m k n b ex m
      else me_loop_m k n b ex m
  end.
(** lines 6-32.  The return code of cry_mpi_init_int is looked at only if the
    loop is not entered, and then after the swap. *)
Definition mod_exp_m (n r b ex : nat) (m : option nat) : cmd Z :=
  run ve <- peek ex;
  run ng <- match m with None => ret false | Some m => run vm <- peek m; ret (neg vm) end;
  if (neg ve || ng)%bool then ret (-1)
  else
    run rc <- init_int n 1;
    let bits := Z.to_nat (count_bits ve) in
    if Nat.eqb bits 0 then call swap r n; call clear n; ret rc
    else
      finally (chk me_loop_m bits n b ex m; call swap r n; ret 0) (clear n).

(** * src/mpi/mpi_gcd.c *)

(** lines 11-12: skip zero digits; the result is the index reached *)
Fixpoint skip_m (x k i : nat) : cmd nat :=
  match k with
  | O => ret i
  | S k => run d <- rd x i; if d =? 0 then skip_m x k (S i) else ret i
  end.
(** lines 7-18; the digit read on line 14 lies past the digits in use when all
    of these are zero *)
Definition lsb_m (x : nat) : cmd Z :=
  run o <- get x;
  run i <- skip_m x (o_us o) 0;
  run d <- rd x i;
  ret (64 * Z.of_nat i + ctz 64 0 d).
(** lines 46-60; the locals are tx, ty.  Leaving the loop by [break] is the
    same as leaving it at the end: the code is overwritten on line 61. *)
Fixpoint gcd_loop_m (fuel n : nat) : cmd unit :=
  run vx <- peek n;
  if is_zero vx then ret tt
  else match fuel with
       | O => outoffuel
       | S f =>
           run lx <- lsb_m n;
           run rc <- shr_m n n lx;
           if negb (rc =? 0) then ret tt
           else
             run ly <- lsb_m (n + 1);
             run rc <- shr_m (n + 1) (n + 1) ly;
             if negb (rc =? 0) then ret tt
             else
               run vx <- peek n;
               run vy <- peek (n + 1);
               if 0 <=? cmp_abs vx vy then
                 run rc <- (chk sub_abs_m n n (n + 1); shr_m n n 1);
                 if negb (rc =? 0) then ret tt else gcd_loop_m f n
               else
                 run rc <- (chk sub_abs_m (n + 1) (n + 1) n; shr_m (n + 1) (n + 1) 1);
                 if negb (rc =? 0) then ret tt else gcd_loop_m f n
       end.
(** lines 24-65.  Line 61: the result is swapped in whether or not the shift
    succeeded.  Fuel as in MpiAlgModel.v. *)
Definition gcd_m (n r x y : nat) : cmd Z :=
  chk init_list [] (locals n 2);
  finally
    (chk copy n x;
     chk copy (n + 1) y;
     run lz <- lsb_m n;
     run lzt <- lsb_m (n + 1);
     let lz := Z.min lz lzt in
     chk shr_m n n lz;
     chk shr_m (n + 1) (n + 1) lz;
     run vx <- peek n;
     run vy <- peek (n + 1);
     call gcd_loop_m (S (Z.to_nat (count_bits vx + count_bits vy))) n;
     run rc <- shl_m (n + 1) (n + 1) lz;
     call swap r (n + 1);
     ret rc)
    (clear_list (locals n 2)).

(** src/mpi/mpi_lcm.c:6-19; the locals are gcm, prod *)
Definition lcm_m (n r x y : nat) : cmd Z :=
  chk init_list [] (locals n 2);
  finally
    (chk gcd_m (n + 2) n x y;
     chk mul_m (n + 2) (n + 1) x y;
     div_m (n + 2) (Some r) None (n + 1) n)
    (clear_list (locals n 2)).

(** * src/mpi/mpi_sqrt.c *)

(** lines 75-80 and 83-88; the locals are t1, t2 *)
Definition sqrt_step_m (n a : nat) : cmd Z :=
  chk div_m (n + 2) (Some (n + 1)%nat) None a n;
  chk add_m n n (n + 1);
  shr_m n n 1.
(** lines 82-89 *)
Fixpoint sqrt_loop_m (fuel n a : nat) : cmd Z :=
  match fuel with
  | O => outoffuel
  | S f =>
      chk sqrt_step_m n a;
      run v1 <- peek n;
      run v2 <- peek (n + 1);
      if 0 <? cmp_abs v1 v2 then sqrt_loop_m f n a else ret 0
  end.
(** lines 51-95; cry_mpi_shrd cannot fail *)
Definition sqrt_m (n r a : nat) : cmd Z :=
  run va <- peek a;
  if neg va then ret (-1)
  else if is_zero va then call zero r; ret 0
  else
    chk init_list [] (locals n 2);
    finally
      (chk copy n a;
       run o <- get n;
       call shrd_m n (o_us o / 2);
       chk sqrt_step_m n a;
       chk sqrt_loop_m (S (S (Z.to_nat (count_bits va)))) n a;
       call swap r n;
       ret 0)
      (clear_list (locals n 2)).

(** * src/mpi/mpi_inv.c, CRY_MPI_INV_EUCLID.  The locals are
    r0, r1, s0, s1, q. *)

(** lines 25-36: the return codes are ignored *)
Fixpoint inv_loop_m (fuel n : nat) : cmd unit :=
  run v <- peek (n + 1);
  if is_zero v then ret tt
  else match fuel with
       | O => outoffuel
       | S f =>
           call div_m (n + 5) (Some (n + 4)%nat) (Some n) n (n + 1);
           call swap n (n + 1);
           call mul_m (n + 5) (n + 4) (n + 4) (n + 3);
           call sub_m (n + 2) (n + 2) (n + 4);
           call swap (n + 2) (n + 3);
           call zero (n + 4);
           inv_loop_m f n
       end.
(** lines 11-49, for a given bound on the rounds *)
Definition inv_fuel_m (fuel n r a m : nat) : cmd Z :=
  chk init_list [] (locals n 5);
  finally
    (call copy n a;
     call copy (n + 1) m;
     call set_int (n + 2) 1;
     call set_int (n + 3) 0;
     call inv_loop_m fuel n;
     run v <- peek n;
     match dg v, neg v with
     | [1], false =>
         call swap r (n + 2);
         run w <- peek r;
         call (if neg w then mod_m (n + 5) r r m else ret 0);
         ret 0
     | _, _ => call zero (n + 2); ret (-1)
     end)
    (clear_list (locals n 5)).
Definition inv_m (n r a m : nat) : cmd Z :=
  run v <- peek m;
  inv_fuel_m (S (S (Z.to_nat (2 * count_bits v)))) n r a m.
