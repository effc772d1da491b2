(** Executable model of the multi-precision integers (src/mpi).

    Representation (include/cry/mpi.h:57-62): a sign flag and [used] digits,
    least significant first.  The digit is a 64-bit unsigned word
    (include/cry/mpi.h:12-49 with the shipped config.h: CRY_MPI_DIGIT_MAX =
    ULONG_MAX).  The list [dg] holds exactly the [used] digits.

    Simplifications, valid for the whole file: [alloc] and the digits stored
    above [used] are not represented (every routine grows the destination
    before writing); allocation always succeeds, so the allocation-failure
    returns are absent.  A routine writing to [r] returns the new [r]; the only
    part of the old [r] that can reach the result is its sign, passed as [rs]
    where it does. *)
From Verif Require Import Base.

(** Digit base, include/cry/mpi.h:23-52. *)
Definition B : Z := 18446744073709551616.

Record mpi : Type := mkmpi { neg : bool; dg : list Z }.

Definition used (a : mpi) : nat := length (dg a).

(** include/cry/mpi.h cry_mpi_is_zero *)
Definition is_zero (a : mpi) : bool :=
  match dg a with [] => true | _ => false end.

(** include/cry/mpi.h cry_mpi_zero *)
Definition mzero : mpi := mkmpi false [].

(** The on-stack constant one used by several routines, e.g.
    src/mpi/mpi_div.c:13-18. *)
Definition mone : mpi := mkmpi false [1].

(** include/cry/mpi.h cry_mpi_is_odd *)
Definition is_odd (a : mpi) : bool :=
  match dg a with [] => false | d :: _ => Z.odd d end.

(** src/mpi/mpi_pvt.h:55-59 cry_mpi_adjust: drop most significant zero digits. *)
Fixpoint adjust (l : list Z) : list Z :=
  match l with
  | [] => []
  | d :: r => match adjust r with
              | [] => if d =? 0 then [] else [d]
              | r' => d :: r'
              end
  end.

(** src/mpi/mpi_abs.c:3-13 *)
Definition mpi_abs (s : mpi) : mpi := mkmpi false (dg s).

(** src/mpi/mpi_cmp_abs.c:16-27: the scan from the most significant digit,
    for equal lengths.  -1, 0 or 1. *)
Fixpoint cmp_digs (a b : list Z) : Z :=
  match a, b with
  | x :: a', y :: b' =>
      let r := cmp_digs a' b' in
      if r =? 0 then (if x <? y then -1 else if y <? x then 1 else 0) else r
  | _, _ => 0
  end.

(** src/mpi/mpi_cmp_abs.c:6-28 *)
Definition cmp_abs (a b : mpi) : Z :=
  if (used a <? used b)%nat then -1
  else if (used b <? used a)%nat then 1
  else cmp_digs (dg a) (dg b).

(** src/mpi/mpi_cmp.c:6-20 *)
Definition cmp (a b : mpi) : Z :=
  match neg a, neg b with
  | true, false => -1
  | false, true => 1
  | false, false => cmp_abs a b
  | true, true => - cmp_abs a b
  end.

(** src/mpi/mpi_add_abs.c:36-46: propagate the carry, then copy the rest. *)
Fixpoint add_carry (a : list Z) (c : Z) : list Z :=
  if c =? 0 then a
  else match a with
       | [] => [1]
       | x :: a' => let d := (x + 1) mod B in
                    d :: add_carry a' (if d =? 0 then 1 else 0)
       end.

(** src/mpi/mpi_add_abs.c:27-34: the common digits ([a] is the longer). *)
Fixpoint add_loop (a b : list Z) (c : Z) : list Z :=
  match b, a with
  | y :: b', x :: a' =>
      let t := (x + c) mod B in
      let c1 := if t <? c then 1 else 0 in
      let l := (t + y) mod B in
      let c2 := c1 + (if l <? t then 1 else 0) in
      l :: add_loop a' b' c2
  | _, _ => add_carry a c
  end.

(** src/mpi/mpi_add_abs.c:3-48 *)
Definition add_abs (a b : mpi) : mpi :=
  if (used a <? used b)%nat then mkmpi false (add_loop (dg b) (dg a) 0)
  else mkmpi false (add_loop (dg a) (dg b) 0).

(** src/mpi/mpi_sub_abs.c:33-44: propagate the borrow, then copy the rest;
    [None] is the -1 return of line 42. *)
Fixpoint sub_borrow (a : list Z) (c : Z) : option (list Z) :=
  if c =? 0 then Some a
  else match a with
       | [] => None
       | x :: a' =>
           match sub_borrow a' (if x =? 0 then 1 else 0) with
           | None => None
           | Some r => Some ((x - 1) mod B :: r)
           end
       end.

(** src/mpi/mpi_sub_abs.c:24-31: the common digits. *)
Fixpoint sub_loop (a b : list Z) (c : Z) : option (list Z) :=
  match b, a with
  | y :: b', x :: a' =>
      match sub_loop a' b' (if x =? y then c else if x <? y then 1 else 0) with
      | None => None
      | Some r => Some ((x - y - c) mod B :: r)
      end
  | _, _ => sub_borrow a c
  end.

(** src/mpi/mpi_sub_abs.c:3-47 *)
Definition sub_abs (a b : mpi) : res mpi :=
  if cmp_abs a b <? 0 then Err (-1)
  else match sub_loop (dg a) (dg b) 0 with
       | None => Err (-1)
       | Some r => Ok (mkmpi false (adjust r))
       end.

Definition set_sign (s : bool) (a : mpi) : mpi := mkmpi s (dg a).

(** src/mpi/mpi_add.c:3-34 *)
Definition add (a b : mpi) : res mpi :=
  if Bool.eqb (neg a) (neg b) then Ok (set_sign (neg a) (add_abs a b))
  else match cmp_abs a b with
       | Zpos xH => do r <- sub_abs a b; Ok (set_sign (neg a) r)
       | Zneg xH => do r <- sub_abs b a; Ok (set_sign (neg b) r)
       | _ => Ok mzero
       end.

(** src/mpi/mpi_sub.c:6-33 *)
Definition sub (a b : mpi) : res mpi :=
  if negb (Bool.eqb (neg a) (neg b)) then Ok (set_sign (neg a) (add_abs a b))
  else match cmp_abs a b with
       | Zpos xH => do r <- sub_abs a b; Ok (set_sign (neg a) r)
       | Zneg xH => do r <- sub_abs b a; Ok (set_sign (negb (neg b)) r)
       | _ => Ok mzero
       end.

(** src/mpi/mpi_shl.c:6-32 *)
Definition shld (a : mpi) (n : nat) : mpi :=
  if (Nat.eqb n 0 || is_zero a)%bool then a
  else mkmpi (neg a) (repeat 0 n ++ dg a).

(** src/mpi/mpi_shl.c:63-83: shift by [d] bits, 0 < d < 64, carry [r]. *)
Fixpoint shl_loop (l : list Z) (d r : Z) : list Z :=
  match l with
  | [] => if r =? 0 then [] else [r]
  | x :: l' =>
      Z.lor (Z.shiftl x d mod B) r
        :: shl_loop l' d (Z.land (Z.shiftr x (64 - d)) (Z.shiftl 1 d - 1))
  end.

(** src/mpi/mpi_shl.c:37-86 *)
Definition shl (a : mpi) (n : Z) : mpi :=
  if ((n =? 0) || is_zero a)%bool then a
  else
    let c := if 64 <=? n then shld a (Z.to_nat (n / 64)) else a in
    let d := n mod 64 in
    let c := if d =? 0 then c else mkmpi (neg c) (shl_loop (dg c) d 0) in
    mkmpi (neg c) (adjust (dg c)).

(** src/mpi/mpi_shr.c:3-28 *)
Definition shrd (a : mpi) (n : nat) : mpi :=
  if (Nat.eqb n 0 || is_zero a)%bool then a
  else if (used a <=? n)%nat then mzero
  else mkmpi (neg a) (skipn n (dg a)).

(** src/mpi/mpi_shr.c:54-71: shift by [D] bits from the top digit down; the
    second component is the carry handed to the next lower digit. *)
Fixpoint shr_loop (l : list Z) (D : Z) : list Z * Z :=
  match l with
  | [] => ([], 0)
  | x :: l' =>
      let '(h, r) := shr_loop l' D in
      (Z.lor (Z.shiftr x D) (Z.shiftl r (64 - D) mod B) :: h,
       Z.land x (Z.shiftl 1 D - 1))
  end.

(** src/mpi/mpi_shr.c:33-74 *)
Definition shr (a : mpi) (n : Z) : mpi :=
  if ((n =? 0) || is_zero a)%bool then a
  else
    let c := if 64 <=? n then shrd a (Z.to_nat (n / 64)) else a in
    let d := n mod 64 in
    let c := if d =? 0 then c else mkmpi (neg c) (fst (shr_loop (dg c) d)) in
    mkmpi (neg c) (adjust (dg c)).
