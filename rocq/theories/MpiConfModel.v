(** Executable model of the multi-precision code that other build options
    select.  include/cry/config.h defines CRY_MPI_INV_EUCLID and does not define
    CRY_MPI_DIV_SMALL; MpiDivModel and MpiAlgModel hold the code of that
    configuration, this file holds the other branch of each conditional.
    Simplifications as in MpiModel. *)
From Verif Require Import Base MpiModel MpiMulModel MpiDivModel MpiIOModel.

(** src/mpi/mpi_div_abs.c:39-48: [n]+1 rounds of shift and subtract; the result
    is quotient and remainder *)
Fixpoint ds_loop (n : nat) (ta tb tq q : mpi) : res (mpi * mpi) :=
  do ' (ta, q) <- (if cmp tb ta <=? 0 then
                     do ta <- sub ta tb;
                     do q <- add q tq;
                     Ok (ta, q)
                   else Ok (ta, q));
  let tb := shr tb 1 in
  let tq := shr tq 1 in
  match n with
  | O => Ok (q, ta)
  | S n' => ds_loop n' ta tb tq q
  end.

(** src/mpi/mpi_div_abs.c:6-62, CRY_MPI_DIV_SMALL defined.  The subtraction of
    line 32 is on size_t; it is not negative because |a| >= |b| there. *)
Definition div_abs_small (a b : mpi) : res (mpi * mpi) :=
  if is_zero b then Err (-1)
  else if cmp_abs a b <? 0 then Ok (mzero, a)
  else
    do tq <- set_int 1;
    let n := count_bits a - count_bits b in
    do ' (q, ta) <- ds_loop (Z.to_nat n) (mpi_abs a) (shl (mpi_abs b) n) (shl tq n) mzero;
    Ok (set_sign false q, set_sign false ta).

(** src/mpi/mpi_inv.c:79-87 and 88-96: halve [t] until it is odd.  A zero is
    even, so the loop does not end for it.  The code ignores the return codes;
    none of the calls can fail here, so the model propagates them. *)
Fixpoint halve (fuel : nat) (ta tb t u1 u2 : mpi) : res (mpi * mpi * mpi) :=
  if is_odd t then Ok (t, u1, u2)
  else match fuel with
       | O => Fuel
       | S f =>
           let t := shr t 1 in
           do ' (u1, u2) <- (if is_odd u1 || is_odd u2 then
                               do u1 <- add u1 tb;
                               do u2 <- sub u2 ta;
                               Ok (u1, u2)
                             else Ok (u1, u2));
           halve f ta tb t (shr u1 1) (shr u2 1)
       end.

(** src/mpi/mpi_inv.c:78-106: the result is V1; [n] bounds the inner loops *)
Fixpoint bin_loop (fuel n : nat) (ta tb tu u1 u2 tv v1 v2 : mpi) : res mpi :=
  match fuel with
  | O => Fuel
  | S f =>
      do ' (tu, u1, u2) <- halve n ta tb tu u1 u2;
      do ' (tv, v1, v2) <- halve n ta tb tv v1 v2;
      if 0 <=? cmp tu tv then
        do tu <- sub tu tv;
        do u1 <- sub u1 v1;
        do u2 <- sub u2 v2;
        if is_zero tu then Ok v1 else bin_loop f n ta tb tu u1 u2 tv v1 v2
      else
        do tv <- sub tv tu;
        do v1 <- sub v1 u1;
        do v2 <- sub v2 u2;
        if is_zero tu then Ok v1 else bin_loop f n ta tb tu u1 u2 tv v1 v2
  end.

(** src/mpi/mpi_inv.c:108-109 *)
Fixpoint norm_up (fuel : nat) (v m : mpi) : res mpi :=
  if negb (is_zero v) && neg v then
    match fuel with
    | O => Fuel
    | S f => do v <- add v m; norm_up f v m
    end
  else Ok v.
(** src/mpi/mpi_inv.c:111-112 *)
Fixpoint norm_down (fuel : nat) (v m : mpi) : res mpi :=
  if 0 <=? cmp v m then
    match fuel with
    | O => Fuel
    | S f => do v <- sub v m; norm_down f v m
    end
  else Ok v.

(** src/mpi/mpi_inv.c:58-119 cry_mpi_inv, CRY_MPI_INV_EUCLID not defined.
    [fuel] bounds the rounds of each loop. *)
Definition inv_bin (fuel : nat) (x m : mpi) : res mpi :=
  do ta <- mod_ x m;
  do u1 <- set_int 1;
  do u2 <- set_int 0;
  do v1 <- set_int 0;
  do v2 <- set_int 1;
  do v1 <- bin_loop fuel fuel ta m ta u1 u2 m v1 v2;
  do v1 <- norm_up fuel v1 m;
  norm_down fuel v1 m.

(** * The multiplication options *)
(** CRY_MPI_MUL_TOOM3, CRY_MPI_MUL_KARATSUBA, CRY_MPI_MUL_COMBA, config/config.mk:36-42 *)
Record mulopts := { o_toom3 : bool; o_karatsuba : bool; o_comba : bool }.
(** include/cry/config.h:7-9 *)
Definition shipped : mulopts := {| o_toom3 := true; o_karatsuba := true; o_comba := true |}.

(** src/mpi/mpi_mul_abs.c:8-25 *)
Fixpoint mul_abs_c (o : mulopts) (fuel : nat) (rs : bool) (a b : mpi) : res mpi :=
  match fuel with
  | O => Fuel
  | S f =>
      let m := Nat.min (used a) (used b) in
      if o_toom3 o && (300 <? m)%nat then toom3 (mul_abs_c o f) a b
      else if o_karatsuba o && (64 <? m)%nat then karatsuba (mul_abs_c o f) a b
      else Ok (if o_comba o then mul_comba rs a b else mul_baseline a b)
  end.
(** src/mpi/mpi_mul.c:3-12 *)
Definition mul_c (o : mulopts) (rs : bool) (a b : mpi) : res mpi :=
  mul_gen (mul_abs_c o (S (Nat.min (used a) (used b)))) rs a b.

(** src/mpi/mpi_sqr.c:7-19 *)
Fixpoint sqr_cf (o : mulopts) (fuel : nat) (rs : bool) (a : mpi) : res mpi :=
  match fuel with
  | O => Fuel
  | S f =>
      if o_karatsuba o && (64 <? used a)%nat then sqr_karatsuba (sqr_cf o f) a
      else if o_comba o then Ok (sqr_comba rs a) else sqr_baseline a
  end.
Definition sqr_c (o : mulopts) (rs : bool) (a : mpi) : res mpi := sqr_cf o (S (used a)) rs a.
